(** Proofs for C109. *)
From Coq Require Import String Ascii ZArith List Bool Lia ZifyBool.
From Verif Require Import Py Base Msg Daemon SpecMsg SpecDaemon SpecTyped MsgProofs DaemonProofs Props_Daemon.
Import ListNotations.
Open Scope Z_scope.

Lemma number_scan zx scan : libc_scanner zx scan -> forall t r, number zx t r -> scan t = r.
Proof.
  intros LS t r N. pose proof (libc_c _ _ LS) as CS. induction N.
  - rewrite (scan_white _ CS) by assumption. assumption.
  - apply (scan_two _ CS); assumption.
  - apply (libc_prefix _ _ LS). assumption.
  - apply (scan_one _ CS); assumption.
  - apply (libc_plus _ _ LS). assumption.
  - apply (libc_minus _ _ LS). assumption.
  - apply (libc_sign _ _ LS); assumption.
  - apply (scan_bad _ CS); assumption.
Qed.

Lemma digit_or c : (exists v, hex_code c v) \/ no_digit c.
Proof.
  destruct (ex_digit c) as [v|] eqn:E; [left; exists v; apply ex_digit_spec; exact E|right].
  intros v H. apply ex_digit_spec in H. congruence.
Qed.
Lemma white_or c : white c \/ ~ white c.
Proof. unfold white. lia. Qed.
(** Some number, or none, at the beginning of every text that ends. *)
Lemma number_exists zx t : In 0 t -> exists r, number zx t r.
Proof.
  induction t as [|c t IH]; [intros []|]. intros I. destruct (white_or c) as [W|W].
  - destruct I as [->|I]; [unfold white in W; lia|]. destruct (IH I) as [r R]. exists r. apply n_white; assumption.
  - destruct (digit_or c) as [[h H]|N].
    + destruct I as [->|I]; [unfold hex_code in H; lia|]. destruct t as [|c2 t]; [destruct I|].
      destruct (digit_or c2) as [[l L]|N2]; [eexists; apply n_two; eassumption|].
      destruct (Z.eq_dec c 48) as [->|E].
      * destruct (Z.eq_dec c2 88) as [->|E1]; [eexists; apply n_prefix; auto|].
        destruct (Z.eq_dec c2 120) as [->|E2]; [eexists; apply n_prefix; auto|].
        eexists. apply n_one; [exact H|exact N2|lia].
      * eexists. apply n_one; [exact H|exact N2|lia].
    + destruct (Z.eq_dec c 43) as [->|E1]; [|destruct (Z.eq_dec c 45) as [->|E2]; [|eexists; apply n_other; assumption]];
        (destruct I as [X|I]; [discriminate X|]); (destruct t as [|c2 t]; [destruct I|]);
        (destruct (digit_or c2) as [[l L]|N2]; [|exists None; apply n_sign; auto]);
        [exists (Some l); apply n_plus; exact L|exists (Some ((256 - l) mod 256)); apply n_minus; exact L].
Qed.

Lemma hex_unique c v w : hex_code c v -> hex_code c w -> v = w.
Proof. unfold hex_code. lia. Qed.
Ltac hexes := repeat match goal with
  | A : hex_code ?c ?v, B : hex_code ?c ?w |- _ =>
      first [constr_eq v w; fail 1 | pose proof (hex_unique _ _ _ A B); subst; clear A]
  | A : hex_code ?c ?v, B : no_digit ?c |- _ => exfalso; exact (B _ A)
  end.
(** The example scanner, completed to show that the number is unique. *)
Definition li_pair (zx : option Z) (text : list Z) : option Z :=
  match text with
  | c1 :: c2 :: _ =>
      if (c1 =? 48) && ((c2 =? 88) || (c2 =? 120)) then zx
      else if c1 =? 43 then ex_digit c2
      else if c1 =? 45 then match ex_digit c2 with Some h => Some ((256 - h) mod 256) | None => None end
      else ex_pair text
  | _ => ex_pair text
  end.
Definition li_scan (zx : option Z) (text : list Z) : option Z := li_pair zx (ex_skip text).
Lemma li_scanner zx : (forall v, zx = Some v -> is_octet v) -> libc_scanner zx (li_scan zx).
Proof.
  intros Z0. assert (CS : c_scanner (li_scan zx)).
  { constructor; unfold li_scan.
    - intros c1 c2 h l rest H1 H2. rewrite ex_skip_not by (eapply hex_not_white; exact H1). unfold li_pair.
      destruct ((c1 =? 48) && ((c2 =? 88) || (c2 =? 120))) eqn:E; [unfold hex_code in *; lia|].
      destruct (c1 =? 43) eqn:E1; [unfold hex_code in *; lia|]. destruct (c1 =? 45) eqn:E2; [unfold hex_code in *; lia|].
      pose proof (scan_two _ ex_scanner c1 c2 h l rest H1 H2) as X. unfold ex_scan in X.
      rewrite ex_skip_not in X by (eapply hex_not_white; exact H1). exact X.
    - intros c1 c2 h rest H1 H2 N. rewrite ex_skip_not by (eapply hex_not_white; exact H1). unfold li_pair.
      destruct ((c1 =? 48) && ((c2 =? 88) || (c2 =? 120))) eqn:E; [exfalso; apply N; lia|].
      destruct (c1 =? 43) eqn:E1; [unfold hex_code in *; lia|]. destruct (c1 =? 45) eqn:E2; [unfold hex_code in *; lia|].
      pose proof (scan_one _ ex_scanner c1 c2 h rest H1 H2 N) as X. unfold ex_scan in X.
      rewrite ex_skip_not in X by (eapply hex_not_white; exact H1). exact X.
    - intros c rest H W N1 N2. rewrite ex_skip_not by exact W. unfold li_pair.
      assert (P : ex_pair (c :: rest) = None) by (unfold ex_pair; rewrite (ex_no_digit _ H); destruct rest; reflexivity).
      destruct rest as [|c2 rest]; [exact P|].
      destruct ((c =? 48) && ((c2 =? 88) || (c2 =? 120))) eqn:E.
      { exfalso. apply (H 0). unfold hex_code. lia. }
      destruct (c =? 43) eqn:E1; [lia|]. destruct (c =? 45) eqn:E2; [lia|]. exact P.
    - unfold white. intros c rest H. cbn [ex_skip]. destruct ((c =? 32) || ((9 <=? c) && (c <=? 13))) eqn:E; [reflexivity|lia].
    - intros text v. generalize (ex_skip text). clear text. intros text H.
      assert (D : forall c w, ex_digit c = Some w -> is_octet w).
      { intros c w E. apply ex_digit_spec in E. apply hex_range in E. unfold is_octet. lia. }
      assert (P : forall w, ex_pair text = Some w -> is_octet w).
      { intros w E. destruct text as [|c1 [|c2 rest]]; cbn [ex_pair] in E; [discriminate|eapply D; exact E|].
        destruct (ex_digit c1) as [h|] eqn:E1; [|discriminate]. destruct (ex_digit c2) as [l|] eqn:E2.
        - injection E as <-. apply ex_digit_spec in E1. apply ex_digit_spec in E2. apply hex_range in E1. apply hex_range in E2. unfold is_octet. lia.
        - destruct (_ && _); [discriminate|]. injection E as <-. eapply D. exact E1. }
      destruct text as [|c1 [|c2 rest]]; [apply P; exact H|apply P; exact H|]. unfold li_pair in H.
      destruct (_ && _); [apply Z0; exact H|]. destruct (c1 =? 43); [eapply D; exact H|].
      destruct (c1 =? 45); [|apply P; exact H]. destruct (ex_digit c2) as [h|]; [|discriminate]. injection H as <-.
      unfold is_octet. pose proof (Z.mod_pos_bound (256 - h) 256). lia. }
  constructor; [exact CS| | | |]; unfold li_scan.
  - intros c h rest H. rewrite ex_skip_not by (unfold white; lia). cbn. apply ex_digit_spec in H. exact H.
  - intros c h rest H. rewrite ex_skip_not by (unfold white; lia). unfold li_pair. apply ex_digit_spec in H. rewrite H. reflexivity.
  - intros s c rest S N. rewrite ex_skip_not by (unfold white; lia). unfold li_pair. rewrite (ex_no_digit _ N).
    destruct S as [-> | ->]; reflexivity.
  - intros c rest C. rewrite ex_skip_not by (unfold white; lia). unfold li_pair. destruct C as [-> | ->]; reflexivity.
Qed.

Lemma numbers_exist zx n : forall t, (2 * n <= length t)%nat -> forall b, In 0 b -> exists o, numbers zx n (t ++ b) o.
Proof.
  induction n as [|n IH]; intros t L b I; [exists []; constructor|].
  destruct t as [|c1 [|c2 t]]; cbn [length] in L; [lia|lia|].
  destruct (number_exists zx ((c1 :: c2 :: t) ++ b)) as [[v|] R]; [apply in_or_app; right; exact I| |].
  - destruct (IH t ltac:(lia) b I) as [o O]. exists (v :: o). cbn [app] in *. apply ns_next; assumption.
  - exists []. apply ns_stop. exact R.
Qed.
Lemma numbers_length zx n t o : numbers zx n t o -> (length o <= n)%nat.
Proof. induction 1; cbn [length]; lia. Qed.

Lemma numbers_parse zx scan : libc_scanner zx scan -> forall n t o, numbers zx n t o -> forall pre a b i,
  zlen pre = 2 * i -> zlen a = i -> zlen o <= zlen b ->
  snd (fst (parse_loop scan n i (pre ++ t) (a ++ b))) = a ++ over o b.
Proof.
  intros LS n t o N. induction N as [t|n t R|n c1 c2 t v o R N IH]; intros pre a b i Hp Ha Hb; cbn [parse_loop].
  - reflexivity.
  - rewrite zdrop_app_exact by lia. rewrite (number_scan zx scan LS _ _ R). reflexivity.
  - rewrite zdrop_app_exact by lia. rewrite (number_scan zx scan LS _ _ R).
    destruct b as [|x b]; [rewrite zlen_cons in Hb; pose proof (zlen_nonneg o); rewrite zlen_nil in Hb; lia|].
    rewrite <- Ha at 2. rewrite upd_at.
    specialize (IH (pre ++ [c1; c2]) (a ++ [v]) b (i + 1)).
    assert (E1 : (pre ++ [c1; c2]) ++ t = pre ++ c1 :: c2 :: t) by (rewrite <- app_assoc; reflexivity).
    assert (E2 : (a ++ [v]) ++ b = a ++ v :: b) by (rewrite <- app_assoc; reflexivity).
    rewrite E1, E2 in IH.
    destruct (parse_loop scan n (i + 1) (pre ++ c1 :: c2 :: t) (a ++ v :: b)) as [[r p] tr]. cbn [fst snd] in *.
    rewrite IH.
    + unfold over. cbn [length skipn]. rewrite <- app_assoc. reflexivity.
    + rewrite zlen_app. change (zlen [c1; c2]) with 2. lia.
    + rewrite zlen_app. change (zlen [v]) with 1. lia.
    + rewrite !zlen_cons in Hb. lia.
Qed.

(** ** The line ends *)
Lemma end_or c : line_end c \/ ~ line_end c.
Proof. unfold line_end. lia. Qed.
Lemma line_exists chunk : chunk <> [] -> exists body eol, line_of chunk body eol.
Proof.
  intros N. destruct (exists_last N) as (t & c & ->).
  destruct (end_or c) as [C|C].
  2:{ exists (t ++ [c]), []. split; [rewrite app_nil_r; reflexivity|]. split; [constructor|]. split; [discriminate|]. right. right. eauto. }
  destruct t as [|y t0]; [exists [], [c]; split; [reflexivity|]; split; [constructor; [exact C|constructor]|]; split; [discriminate|]; auto|].
  destruct (exists_last (l := y :: t0) ltac:(discriminate)) as (t & x & ->).
  destruct (end_or x) as [X|X].
  - exists t, [x; c]. split; [rewrite <- app_assoc; reflexivity|]. split; [constructor; [exact X|constructor; [exact C|constructor]]|]. split; [discriminate|]. left. reflexivity.
  - exists (t ++ [x]), [c]. split; [reflexivity|]. split; [constructor; [exact C|constructor]|]. split; [discriminate|]. right. right. eauto.
Qed.
Lemma line_stripped u chunk body eol : chunk <> [] -> line_of chunk body eol ->
  stripped u chunk = zlen body \/ stripped u chunk = -1 /\ body = [].
Proof.
  intros N (E & F & L & C). assert (B : body = [] \/ body <> []) by (destruct body; [left; reflexivity|right; discriminate]).
  destruct B as [->|B].
  - cbn [app] in E. subst chunk. destruct (stripped_bare u eol (conj F L) N) as [S|S]; [left|right]; auto.
  - left. destruct C as [C|[C|(t & x & Et & X)]]; [|contradiction|].
    + destruct eol as [|a [|b [|d eol]]]; try discriminate C; [|rewrite !zlen_cons in C; pose proof (zlen_nonneg eol); lia].
      inversion F as [|? ? Fa F']. inversion F' as [|? ? Fb _]. rewrite E. apply stripped_two; assumption.
    + rewrite E, Et, <- app_assoc, stripped_body by (try assumption; split; assumption). rewrite zlen_app. reflexivity.
Qed.

Lemma read_typed zx scan u chunk o packet : libc_scanner zx scan -> chunk <> [] -> zlen chunk <= 113 -> zlen packet = 56 ->
  read_as zx (ar_behind u) chunk o ->
  snd (fst (read_from_client scan u chunk packet)) = over o packet /\ zlen o <= 56.
Proof.
  intros LS N Lc Lp R. destruct (read_steps scan u chunk packet N) as (t1 & _ & ->).
  destruct R as [body eol B O|body eol n o B E Ns].
  - split; [|discriminate]. assert (S : negb (Z.rem (stripped u chunk) 2 =? 0) = true).
    { destruct (line_stripped u chunk body eol N B) as [S|[S _]]; rewrite S; [|reflexivity].
      apply negb_true_iff, Z.eqb_neq. intros R. apply Z.rem_divide in R; [|lia]. destruct R as [k R]. rewrite R in O.
      rewrite Z.odd_mul in O. cbn in O. rewrite Bool.andb_false_r in O. discriminate O. }
    rewrite S. reflexivity.
  - pose proof (numbers_length _ _ _ _ Ns) as Lo.
    assert (Lb : zlen body <= 113).
    { destruct B as (-> & _). rewrite zlen_app in Lc. pose proof (zlen_nonneg eol). lia. }
    assert (L56 : zlen o <= 56) by (unfold zlen in *; lia). split; [|exact L56].
    destruct (line_stripped u chunk body eol N B) as [S|[S ->]]; rewrite S.
    + rewrite E, (Z.mul_comm 2), Z.rem_mul, Z.quot_mul by lia. cbn [Z.eqb negb]. rewrite Nat2Z.id.
      pose proof (numbers_parse zx scan LS n _ o Ns [] [] packet 0 eq_refl eq_refl ltac:(lia)) as P. cbn [app] in P.
      destruct (parse_loop scan n 0 (chunk ++ ar_behind u) packet) as [[r p] t]. exact P.
    + assert (n = 0%nat) by (change (zlen (@nil Z)) with 0 in E; lia). subst n. inversion Ns. subst. reflexivity.
Qed.
Lemma read_exists zx u chunk : chunk <> [] -> In 0 (ar_behind u) -> exists o, read_as zx (ar_behind u) chunk o.
Proof.
  intros N I. destruct (line_exists chunk N) as (body & eol & B). destruct (Z.odd (zlen body)) eqn:O.
  - exists []. eapply ra_odd; eassumption.
  - rewrite <- Z.negb_even in O. apply negb_false_iff, Z.even_spec in O. destruct O as [k K].
    pose proof (zlen_nonneg body) as P. pose proof B as (E & _).
    destruct (numbers_exist zx (Z.to_nat k) body ltac:(unfold zlen in K; lia) (eol ++ ar_behind u)) as [o O]; [apply in_or_app; right; exact I|].
    exists o. apply (ra_even zx (ar_behind u) chunk body eol (Z.to_nat k)); [exact B|lia|]. rewrite E, <- app_assoc. exact O.
Qed.
