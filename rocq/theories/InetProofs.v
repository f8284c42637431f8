(** Proofs about inet_aton (C72). *)
From Coq Require Import String Ascii ZArith List Bool Lia ZifyBool.
From Verif Require Import Py Base Inet SpecMsg SpecInet.
Import ListNotations.
Open Scope Z_scope.

(** ** Digits *)

Definition value_ok (c : ascii) : bool :=
  match digit_value c with
  | Some d => (0 <=? d) && (d <? 16) &&
              (match nth_error (list_ascii_of_string "0123456789abcdef") (Z.to_nat d) with Some x => Ascii.eqb x c | None => false end ||
               match nth_error (list_ascii_of_string "0123456789ABCDEF") (Z.to_nat d) with Some x => Ascii.eqb x c | None => false end)
  | None => true
  end.
Lemma value_all c : value_ok c = true.
Proof. destruct c as [[] [] [] [] [] [] [] []]; vm_compute; reflexivity. Qed.
Lemma digit_value_some c d : digit_value c = Some d -> digit_of 16 c d.
Proof.
  intros E. pose proof (value_all c) as V. unfold value_ok in V. rewrite E in V.
  apply andb_true_iff in V. destruct V as [V1 V2]. split; [lia|]. apply orb_true_iff in V2.
  destruct V2 as [V|V]; [left|right]; destruct (nth_error _ _); try discriminate; apply Ascii.eqb_eq in V; congruence.
Qed.
Lemma digit_of_value base c d : base <= 16 -> digit_of base c d -> digit_value c = Some d.
Proof.
  intros B [R H].
  assert (I : In (Z.to_nat d) (seq 0 16)) by (apply in_seq; lia).
  assert (D : Z.of_nat (Z.to_nat d) = d) by lia. revert H. rewrite <- D at 3. clear D R.
  revert I. generalize (Z.to_nat d). clear d. intros k I H.
  do 16 (destruct I as [<-|I]; [destruct H as [H|H]; injection H as <-; reflexivity|]). destruct I.
Qed.
Lemma is_digit_of_iff base c : base <= 16 -> is_digit_of base c = true <-> exists d, digit_of base c d.
Proof.
  intros B. unfold is_digit_of. split.
  - destruct (digit_value c) as [d|] eqn:E; [|discriminate]. intros L. exists d.
    destruct (digit_value_some c d E) as [R H]. split; [lia|exact H].
  - intros [d D]. rewrite (digit_of_value base c d B D). destruct D. lia.
Qed.

Definition reads_from (base v : Z) (text : list ascii) (w : Z) : Prop :=
  exists ds, Forall2 (digit_of base) text ds /\ w = fold_left (fun n d => base * n + d) ds v.

Definition stops (base : Z) (tail : list ascii) : Prop :=
  match tail with [] => True | c :: _ => is_digit_of base c = false end.

Lemma run_app base : base <= 16 -> forall text v w tail, reads_from base v text w -> stops base tail ->
  run_of base v (text ++ tail) = (w, tail).
Proof.
  intros B text. induction text as [|c r IH]; intros v w tail (ds & F & ->) S.
  - inversion F. subst. cbn [app fold_left]. destruct tail as [|c r]; [reflexivity|]. cbn in S |- *.
    unfold is_digit_of in S. destruct (digit_value c); [rewrite S|]; reflexivity.
  - inversion F as [|? d ? ds' D F']. subst. cbn [app run_of fold_left].
    rewrite (digit_of_value base c d B D). destruct D as [D _]. rewrite (proj2 (Z.ltb_lt _ _)) by lia.
    apply IH; [|exact S]. exists ds'. auto.
Qed.
Lemma run_split base : forall l v w rest, run_of base v l = (w, rest) -> base <= 16 ->
  exists text, l = text ++ rest /\ reads_from base v text w /\ stops base rest.
Proof.
  induction l as [|c r IH]; intros v w rest H B.
  - injection H as <- <-. exists []. split; [reflexivity|]. split; [exists []; split; [constructor|reflexivity]|exact I].
  - cbn in H. destruct (digit_value c) as [d|] eqn:E.
    + destruct (d <? base) eqn:L.
      * destruct (IH _ _ _ H B) as (text & -> & (ds & F & ->) & S). exists (c :: text). split; [reflexivity|].
        split; [|exact S]. exists (d :: ds). split; [|reflexivity]. constructor; [|exact F].
        destruct (digit_value_some c d E) as [R Q]. split; [lia|exact Q].
      * injection H as <- <-. exists []. split; [reflexivity|]. split; [exists []; split; [constructor|reflexivity]|].
        cbn. unfold is_digit_of. rewrite E. exact L.
    + injection H as <- <-. exists []. split; [reflexivity|]. split; [exists []; split; [constructor|reflexivity]|].
      cbn. unfold is_digit_of. rewrite E. reflexivity.
Qed.

(** ** Numbers *)

(** What may follow a number: the end, a dot or white space. *)
Definition ends (tail : list ascii) : Prop :=
  match tail with [] => True | c :: _ => c = dot \/ white c end.
Lemma ends_stops base tail : base <= 16 -> ends tail -> stops base tail.
Proof.
  intros B E. destruct tail as [|c r]; [exact I|]. cbn in E |- *.
  destruct (is_digit_of base c) eqn:D; [|reflexivity]. apply is_digit_of_iff in D; [|exact B]. destruct D as [d D].
  pose proof (digit_of_value base c d B D) as V. clear D.
  destruct E as [->|W]; [discriminate V|]. cbn in W.
  destruct c as [[] [] [] [] [] [] [] []]; vm_compute in W, V; try discriminate V; exfalso; intuition discriminate.
Qed.
Lemma ends_notx tail : ends tail -> match tail with c :: _ => Ascii.eqb c "x" = false /\ Ascii.eqb c "X" = false | [] => True end.
Proof.
  destruct tail as [|c r]; [auto|]. intros [->|W]; [split; reflexivity|]. cbn in W.
  destruct c as [[] [] [] [] [] [] [] []]; vm_compute in W; try (split; reflexivity); exfalso; intuition discriminate.
Qed.
Lemma octal_notx c d : digit_of 8 c d -> Ascii.eqb c "x" = false /\ Ascii.eqb c "X" = false.
Proof.
  intros D. pose proof (digit_of_value 8 c d ltac:(lia) D) as V.
  destruct c as [[] [] [] [] [] [] [] []]; vm_compute in V; try discriminate V; split; reflexivity.
Qed.

Lemma strtoul_decimal z l : z <> "0"%char -> strtoul (z :: l) = run_of 10 0 (z :: l).
Proof. intros N. apply Ascii.eqb_neq in N. destruct l as [|x [|h r]]; cbn [strtoul]; rewrite N; reflexivity. Qed.
Lemma strtoul_octal l : match l with c :: _ => Ascii.eqb c "x" = false /\ Ascii.eqb c "X" = false | [] => True end ->
  strtoul ("0"%char :: l) = run_of 8 0 l.
Proof.
  intros H. destruct l as [|x [|h r]]; [reflexivity|reflexivity|]. unfold strtoul. destruct H as [-> ->].
  rewrite andb_false_r. reflexivity.
Qed.

Lemma reads_empty base v : reads base [] v -> v = 0.
Proof. intros (ds & F & ->). inversion F. reflexivity. Qed.

Lemma strtoul_app text v tail : numeral text v -> ends tail -> strtoul (text ++ tail) = (v, tail).
Proof.
  intros N E. destruct N as [(c & r & -> & N & R)|[(r & -> & R)|(x & r & -> & X & NE & R)]].
  - cbn [app]. rewrite strtoul_decimal by exact N. apply (run_app 10 ltac:(lia) (c :: r)); [exact R|].
    apply ends_stops; [lia|exact E].
  - cbn [app]. rewrite strtoul_octal.
    + apply run_app; [lia|exact R|]. apply ends_stops; [lia|exact E].
    + destruct r as [|c r]; [apply ends_notx; exact E|]. cbn [app]. destruct R as (ds & F & _).
      inversion F as [|? d ? ds' D _]. exact (octal_notx c d D).
  - destruct r as [|h r]; [congruence|]. cbn [app strtoul].
    assert (H : is_digit_of 16 h = true).
    { destruct R as (ds & F & _). inversion F as [|? d ? ds' D _]. apply is_digit_of_iff; [lia|eauto]. }
    rewrite H. assert (Ascii.eqb x "x" || Ascii.eqb x "X" = true) as -> by (destruct X as [->| ->]; reflexivity).
    cbn [andb]. rewrite Ascii.eqb_refl. cbn [andb]. apply (run_app 16 ltac:(lia) (h :: r)); [exact R|].
    apply ends_stops; [lia|exact E].
Qed.

Lemma strtoul_split c l v rest : is_digit_of 10 c = true -> strtoul (c :: l) = (v, rest) ->
  exists text, c :: l = text ++ rest /\ numeral text v /\ text <> [].
Proof.
  intros D H. destruct (Ascii.eqb c "0") eqn:Z.
  - apply Ascii.eqb_eq in Z. subst c.
    assert (O : forall l', run_of 8 0 ("0"%char :: l') = (v, rest) ->
                exists text, "0"%char :: l' = text ++ rest /\ numeral text v /\ text <> []).
    { intros l' Q. change (run_of 8 0 l' = (v, rest)) in Q. destruct (run_split 8 l' 0 v rest Q ltac:(lia)) as (text & -> & R & _).
      exists ("0"%char :: text). split; [reflexivity|]. split; [|discriminate]. right. left. exists text. auto. }
    destruct l as [|x [|h r]]; [exact (O _ H)|exact (O _ H)|]. unfold strtoul in H.
    destruct (Ascii.eqb "0" "0" && (Ascii.eqb x "x" || Ascii.eqb x "X") && is_digit_of 16 h) eqn:C; [|exact (O _ H)].
    apply andb_true_iff in C. destruct C as [C1 C2]. rewrite Ascii.eqb_refl in C1. cbn in C1. apply orb_true_iff in C1.
    destruct (run_split 16 (h :: r) 0 v rest H ltac:(lia)) as (text & E & R & S).
    exists ("0"%char :: x :: text). rewrite E. split; [reflexivity|]. split; [|discriminate].
    right. right. exists x, text. split; [reflexivity|].
    split; [destruct C1 as [C1|C1]; apply Ascii.eqb_eq in C1; auto|]. split; [|exact R].
    intros ->. cbn in E. subst rest. cbn in S. congruence.
  - apply Ascii.eqb_neq in Z. rewrite strtoul_decimal in H by exact Z.
    destruct (run_split 10 (c :: l) 0 v rest H ltac:(lia)) as (text & E & R & S).
    assert (NE : text <> []). { intros ->. cbn in E. subst rest. cbn in S. congruence. }
    exists text. split; [exact E|]. split; [|exact NE]. left. destruct text as [|c' r]; [congruence|].
    injection E as <- _. exists c, r. auto.
Qed.
Lemma numeral_head text v : numeral text v -> exists c r, text = c :: r /\ is_digit_of 10 c = true.
Proof.
  intros [(c & r & -> & N & R)|[(r & -> & R)|(x & r & -> & _)]]; [|exists "0"%char, r; auto|exists "0"%char, (x :: r); auto].
  exists c, r. split; [reflexivity|]. destruct R as (ds & F & _). inversion F as [|? d ? ds' D _].
  apply is_digit_of_iff; [lia|eauto].
Qed.
Lemma fold_nonneg base ds : 0 <= base -> Forall (fun d => 0 <= d) ds -> forall v, 0 <= v ->
  0 <= fold_left (fun n d => base * n + d) ds v.
Proof. intros B F. induction F as [|d r D F IH]; intros v V; cbn; [exact V|]. apply IH. nia. Qed.
Lemma reads_nonneg base text v : 0 <= base -> reads base text v -> 0 <= v.
Proof.
  intros B (ds & F & ->). apply fold_nonneg; [exact B| |lia].
  clear -F. induction F as [|c d l l' [D _] F IH]; constructor; [lia|exact IH].
Qed.
Lemma numeral_nonneg text v : numeral text v -> 0 <= v.
Proof.
  intros [(c & r & _ & _ & R)|[(r & _ & R)|(x & r & _ & _ & _ & R)]]; apply reads_nonneg in R; lia.
Qed.

(** ** Octets *)

Lemma be_app l : forall acc, fold_left (fun v b => 256 * v + b) l acc = 256 ^ Z.of_nat (length l) * acc + big_endian l.
Proof.
  unfold big_endian. induction l as [|b r IH]; intros acc; [cbn; lia|].
  cbn [fold_left length]. rewrite IH, (IH (256 * 0 + b)). rewrite Nat2Z.inj_succ, Z.pow_succ_r by lia. lia.
Qed.
Lemma big_endian_snoc l b : big_endian (l ++ [b]) = 256 * big_endian l + b.
Proof. unfold big_endian. rewrite fold_left_app. reflexivity. Qed.
Lemma big_endian_bound l : octets l -> 0 <= big_endian l < 256 ^ Z.of_nat (length l).
Proof.
  intros O. induction l as [|b r IH] using rev_ind; [cbn; lia|].
  apply Forall_app in O. destruct O as [O1 O2]. pose proof (Forall_inv O2) as Q. unfold is_octet in Q.
  specialize (IH O1). rewrite big_endian_snoc, app_length, Nat2Z.inj_add. cbn [length Z.of_nat].
  rewrite Z.pow_add_r by lia. change (256 ^ Z.of_nat 1) with 256. nia.
Qed.
Lemma be_octets_spec n : forall v, 0 <= v < 256 ^ Z.of_nat n ->
  length (be_octets n v) = n /\ octets (be_octets n v) /\ big_endian (be_octets n v) = v.
Proof.
  induction n as [|n IH]; intros v V.
  - cbn in V |- *. split; [reflexivity|]. split; [constructor|]. unfold big_endian. cbn. lia.
  - cbn [be_octets]. rewrite Nat2Z.inj_succ, Z.pow_succ_r in V by lia.
    destruct (IH (v / 256)) as (L & O & E).
    { split; [apply Z.div_pos; lia|]. apply Z.div_lt_upper_bound; lia. }
    rewrite app_length, L. split; [cbn; lia|]. split.
    + apply Forall_app. split; [exact O|]. constructor; [|constructor]. unfold is_octet. apply Z.mod_pos_bound. lia.
    + rewrite big_endian_snoc, E. symmetry. apply Z.div_mod. lia.
Qed.
Lemma be_octets_back l : octets l -> be_octets (length l) (big_endian l) = l.
Proof.
  intros O. induction l as [|b r IH] using rev_ind; [reflexivity|].
  apply Forall_app in O. destruct O as [O1 O2]. pose proof (Forall_inv O2) as Q. unfold is_octet in Q.
  rewrite app_length, Nat.add_comm. cbn [length Nat.add be_octets]. rewrite big_endian_snoc.
  replace ((256 * big_endian r + b) / 256) with (big_endian r) by lia.
  replace ((256 * big_endian r + b) mod 256) with b by lia. rewrite (IH O1). reflexivity.
Qed.

(** ** Addresses *)

Lemma isspace_white c : isspace c = true <-> white c.
Proof.
  unfold isspace, white. generalize (N_of_ascii c). intros n. cbn [In]. split.
  - intros H. lia.
  - intros H. lia.
Qed.
Lemma dots_cons p q r : dots (p :: q :: r) = p ++ "."%char :: dots (q :: r).
Proof. reflexivity. Qed.

Lemma aton_sound n : forall l ip, (n <= 3)%nat -> aton_parts n l = Some ip -> octets_text (S n) l ip.
Proof.
  induction n as [n IH] using lt_wf_ind. intros l ip B H.
  destruct l as [|c l]; [destruct n; discriminate|].
  assert (H' : (if is_digit_of 10 c then
        let '(v, rest) := strtoul (c :: l) in
        if v >? 0xFFFFFFFF then None else
        match rest with
        | [] => if v <? 256 ^ (Z.of_nat n + 1) then Some (be_octets (S n) v) else None
        | d :: r =>
            if Ascii.eqb d dot then
              match n with
              | O => None
              | S n' => if v >? 0xFF then None
                        else match aton_parts n' r with Some l' => Some (v :: l') | None => None end
              end
            else if isspace d then
              if v <? 256 ^ (Z.of_nat n + 1) then Some (be_octets (S n) v) else None
            else None
        end
      else None) = Some ip) by (destruct n; exact H).
  clear H. rename H' into H.
  destruct (is_digit_of 10 c) eqn:D; [|discriminate].
  destruct (strtoul (c :: l)) as [v rest] eqn:E.
  destruct (strtoul_split c l v rest D E) as (text & T & N & _). pose proof (numeral_nonneg _ _ N) as V0.
  destruct (v >? 0xFFFFFFFF); [discriminate|].
  assert (LAST : forall tail, c :: l = text ++ tail -> (tail = [] \/ exists c r, tail = c :: r /\ white c) ->
    (if v <? 256 ^ (Z.of_nat n + 1) then Some (be_octets (S n) v) else None) = Some ip -> octets_text (S n) (c :: l) ip).
  { intros tail Q W K. destruct (v <? 256 ^ (Z.of_nat n + 1)) eqn:L; [|discriminate]. injection K as <-.
    replace (Z.of_nat n + 1) with (Z.of_nat (S n)) in L by lia.
    destruct (be_octets_spec (S n) v) as (L1 & L2 & L3); [lia|].
    exists [text], [], (be_octets (S n) v), tail. rewrite Q. split; [reflexivity|]. split; [exact W|].
    split; [exact L1|]. split; [exact L2|]. split; [reflexivity|]. split; [intros Z; rewrite Z in L1; discriminate|].
    cbn [app]. rewrite L3. constructor; [exact N|constructor]. }
  destruct rest as [|d r].
  - apply (LAST []); [exact T|left; reflexivity|exact H].
  - destruct (Ascii.eqb d dot) eqn:Ed.
    + apply Ascii.eqb_eq in Ed. subst d. destruct n as [|n']; [discriminate|].
      destruct (v >? 0xFF) eqn:Q; [discriminate|]. destruct (aton_parts n' r) as [ip'|] eqn:A; [|discriminate].
      injection H as <-. destruct (IH n' ltac:(lia) r ip' ltac:(lia) A) as (parts & init & rst & tail & -> & W & L & O & -> & NE & F).
      exists (text :: parts), (v :: init), rst, tail. split.
      { rewrite T. destruct parts as [|q parts]; [inversion F as [X Y|]; destruct init; discriminate|].
        rewrite dots_cons, <- app_assoc. reflexivity. }
      split; [exact W|]. split; [cbn; lia|]. split; [constructor; [unfold is_octet; lia|exact O]|].
      split; [reflexivity|]. split; [exact NE|]. cbn [app]. constructor; [exact N|exact F].
    + destruct (isspace d) eqn:S; [|discriminate]. apply isspace_white in S.
      apply (LAST (d :: r)); [exact T|right; eauto|exact H].
Qed.

Lemma aton_complete n : forall l ip, (n <= 3)%nat -> octets_text (S n) l ip -> aton_parts n l = Some ip.
Proof.
  induction n as [n IH] using lt_wf_ind. intros l ip B (parts & init & rest & tail & -> & W & L & O & -> & NE & F).
  assert (E : ends tail). { destruct W as [->|(c & r & -> & W)]; [exact I|right; exact W]. }
  destruct init as [|v init].
  - cbn [app] in *. inversion F as [|p ? ? ? N F']. subst. inversion F'. subst. cbn [dots].
    destruct (numeral_head p _ N) as (c & r & -> & D).
    pose proof (strtoul_app _ _ tail N E) as U. pose proof (big_endian_bound rest O) as Q. rewrite L in Q.
    assert (big_endian rest <= 0xFFFFFFFF).
    { assert (256 ^ Z.of_nat (S n) <= 256 ^ 4) by (apply Z.pow_le_mono_r; lia). change (256 ^ 4) with 0x100000000 in *. lia. }
    assert (K : (if big_endian rest <? 256 ^ (Z.of_nat n + 1) then Some (be_octets (S n) (big_endian rest)) else None) = Some rest).
    { replace (Z.of_nat n + 1) with (Z.of_nat (S n)) by lia. rewrite (proj2 (Z.ltb_lt _ _)) by lia.
      rewrite <- L, be_octets_back by exact O. reflexivity. }
    destruct n; cbn [app aton_parts] in U |- *; rewrite D, U;
      (replace (big_endian rest >? 0xFFFFFFFF) with false by lia);
      (destruct W as [->|(x & y & -> & W)]; [exact K|]);
      (destruct (Ascii.eqb x dot) eqn:Ed; [apply Ascii.eqb_eq in Ed; subst x; vm_compute in W; intuition discriminate|]);
      (apply isspace_white in W; rewrite W; exact K).
  - destruct n as [|n'].
    { destruct init; destruct rest; try congruence; cbn in L; try discriminate L; rewrite app_length in L; cbn in L; lia. }
    cbn [app] in F. inversion F as [|p ? ps ? N F']. subst.
    destruct ps as [|q ps]; [inversion F' as [X Y|]; destruct init; discriminate|].
    rewrite dots_cons. destruct (numeral_head p _ N) as (c & r & -> & D).
    cbn [app] in O, L. pose proof (Forall_inv O) as V. apply Forall_inv_tail in O. unfold is_octet in V.
    rewrite <- app_assoc. cbn [app].
    pose proof (strtoul_app _ _ ("."%char :: dots (q :: ps) ++ tail) N (or_introl eq_refl)) as U.
    cbn [app] in U. cbn [aton_parts]. rewrite D, U.
    replace (v >? 0xFFFFFFFF) with false by lia. change (Ascii.eqb "." dot) with true. cbn iota.
    replace (v >? 0xFF) with false by lia.
    rewrite (IH n' ltac:(lia) (dots (q :: ps) ++ tail) (init ++ rest)); [reflexivity|lia|].
    exists (q :: ps), init, rest, tail. split; [reflexivity|]. split; [exact W|]. split; [cbn in L; lia|].
    split; [exact O|]. split; [reflexivity|]. split; [exact NE|exact F'].
Qed.

Lemma aton_spec s ip : ~ In Ascii.zero (list_ascii_of_string s) ->
  (inet_aton s = Ok ip <-> address_text s ip).
Proof.
  intros N. unfold inet_aton. destruct (existsb _ _) eqn:X.
  { apply existsb_exists in X. destruct X as (c & I & X). apply Ascii.eqb_eq in X. subst c. contradiction. }
  split.
  - destruct (aton_parts 3 _) as [l|] eqn:A; [|discriminate]. intros [= <-]. apply aton_sound; [lia|exact A].
  - intros T. rewrite (aton_complete 3 _ ip) by (lia || exact T). reflexivity.
Qed.
Lemma aton_errors s : match inet_aton s with
  | Ok ip => length ip = 4%nat /\ octets ip
  | Err e => (e = ValueError /\ In Ascii.zero (list_ascii_of_string s)) \/
             (e = OSError /\ ~ In Ascii.zero (list_ascii_of_string s) /\ forall ip, ~ address_text s ip)
  end.
Proof.
  unfold inet_aton. destruct (existsb _ _) eqn:X.
  { left. split; [reflexivity|]. apply existsb_exists in X. destruct X as (c & I & X). apply Ascii.eqb_eq in X. subst c. exact I. }
  destruct (aton_parts 3 _) as [l|] eqn:A.
  - apply aton_sound in A; [|lia]. destruct A as (? & ? & ? & ? & _ & _ & L & O & _). auto.
  - right. split; [reflexivity|]. split.
    + intros I. assert (existsb (Ascii.eqb Ascii.zero) (list_ascii_of_string s) = true); [|congruence].
      apply existsb_exists. exists Ascii.zero. auto.
    + intros ip T. apply aton_complete in T; [congruence|lia].
Qed.
