(** Proofs about texts given for a temperature (C51, C107). *)
From Coq Require Import String Ascii ZArith List Bool Lia ZifyBool.
From Verif Require Import Py Base Float Dpt SpecClima.
Import ListNotations.
Open Scope Z_scope.

Definition okc (c : ascii) : bool := text_digit c || text_bar c.
Lemma chars_kind c : let n := Z.of_N (N_of_ascii c) in
  text_digit c = ((48 <=? n) && (n <=? 57)) /\ text_bar c = (n =? 95).
Proof. destruct c as [[] [] [] [] [] [] [] []]; split; reflexivity. Qed.
Lemma digit_bar c : text_digit c = true -> text_bar c = false.
Proof. destruct c as [[] [] [] [] [] [] [] []]; cbn; congruence. Qed.
Lemma okc_digit c : okc c = true -> text_digit c = negb (text_bar c).
Proof. destruct c as [[] [] [] [] [] [] [] []]; cbn; congruence. Qed.
Lemma other_digit c : Z.of_N (N_of_ascii c) < 48 -> negb (text_digit c) = true.
Proof. destruct (chars_kind c) as [-> _]. lia. Qed.
Lemma blank_low c : int_blank c = true -> Z.of_N (N_of_ascii c) < 48.
Proof. unfold int_blank. cbv zeta. lia. Qed.
Lemma okc_range c : okc c = true -> 48 <= Z.of_N (N_of_ascii c) <= 95.
Proof. unfold okc. destruct (chars_kind c) as [-> ->]. lia. Qed.
Definition hd_ok (r : bool) (l : list ascii) : bool := match l with c :: _ => r || text_digit c | [] => r end.
Definition last_ok (l : list ascii) : bool := match l with [] => true | _ => text_digit (last l "_"%char) end.
Definition good_text (r : bool) (l : list ascii) : bool := hd_ok r l && single_bars l && last_ok l.
Lemma plain_good l : l <> [] -> plain_number l = forallb okc l && good_text false l.
Proof.
  intros N. unfold plain_number, good_text, hd_ok, last_ok, okc. destruct l as [|c r]; [contradiction|]. cbn [orb].
  destruct (forallb _ _); cbn [andb]; [|reflexivity]. destruct (text_digit c); cbn [andb]; [|reflexivity]. apply andb_comm.
Qed.
Lemma last_ok_cons c d r : last_ok (c :: d :: r) = last_ok (d :: r).
Proof. reflexivity. Qed.

Lemma int_digits_ok l : forall acc r, forallb okc l = true ->
  int_digits acc r l = if good_text r l then Some (fold_left (fun a c => 10 * a + (Z.of_N (N_of_ascii c) - 48)) (filter text_digit l) acc) else None.
Proof.
  induction l as [|c l IH]; intros acc r H.
  - unfold good_text. cbn. rewrite !andb_true_r. reflexivity.
  - cbn [forallb] in H. apply andb_true_iff in H as [Hc Hl]. destruct (chars_kind c) as [Ed Eb].
    cbn [int_digits]. rewrite <- Ed, <- Eb. unfold okc in Hc. cbn [filter]. destruct (text_digit c) eqn:D.
    + rewrite IH by exact Hl. cbn [fold_left].
      assert (G : good_text r (c :: l) = good_text true l).
      { unfold good_text. cbn [hd_ok single_bars]. rewrite D, orb_true_r. cbn [andb].
        assert (text_bar c = false) as Bc by exact (digit_bar c D). rewrite Bc. cbn [andb negb].
        destruct l as [|d l']; [unfold last_ok; cbn [last]; rewrite D; reflexivity|]. rewrite last_ok_cons. reflexivity. }
      rewrite G. replace (acc * 10 + (Z.of_N (N_of_ascii c) - 48)) with (10 * acc + (Z.of_N (N_of_ascii c) - 48)) by lia. reflexivity.
    + cbn [orb] in Hc. rewrite Hc. destruct r; cbn [andb].
      * rewrite IH by exact Hl.
        assert (G : good_text true (c :: l) = good_text false l).
        { unfold good_text. cbn [hd_ok single_bars]. rewrite Hc. cbn [orb andb].
          destruct l as [|d l']; [unfold last_ok; cbn [last]; rewrite D; reflexivity|]. rewrite last_ok_cons. cbn [hd_ok orb].
          cbn [forallb] in Hl. apply andb_true_iff in Hl as [Hd _]. rewrite (okc_digit d Hd). reflexivity. }
        rewrite G. reflexivity.
      * unfold good_text. cbn [hd_ok]. rewrite D. reflexivity.
Qed.

(** *** Repeating a text *)
Lemma hd_app (a b : list ascii) : a <> [] -> hd_ok false (a ++ b) = hd_ok false a.
Proof. destruct a; [contradiction|reflexivity]. Qed.
Lemma last_app' (a b : list ascii) d : b <> [] -> last (a ++ b) d = last b d.
Proof.
  intros N. induction a as [|x a IH]; [reflexivity|]. cbn [app last]. destruct (a ++ b) eqn:E; [|exact IH].
  destruct a; [|discriminate E]. cbn in E. contradiction.
Qed.
Lemma last_ok_app (a b : list ascii) : b <> [] -> last_ok (a ++ b) = last_ok b.
Proof.
  intros N. unfold last_ok. destruct (a ++ b) eqn:E; [destruct a; [cbn in E; contradiction|discriminate E]|]. rewrite <- E, last_app' by exact N.
  destruct b; [contradiction|reflexivity].
Qed.
Lemma bars_app (a b : list ascii) : forallb okc b = true -> hd_ok false b = true -> single_bars (a ++ b) = single_bars a && single_bars b.
Proof.
  intros Ob Hb. induction a as [|c a IH]; [reflexivity|]. cbn [app single_bars]. rewrite IH. destruct a as [|d a]; cbn [app].
  - destruct b as [|e b]; [discriminate Hb|]. cbn in Hb. rewrite (digit_bar e Hb). rewrite andb_false_r. reflexivity.
  - rewrite andb_assoc. reflexivity.
Qed.
Lemma good_repeat l n : l <> [] -> forallb okc l = true -> good_text false (concat (repeat l (S n))) = good_text false l.
Proof.
  intros N O. induction n as [|n IH]; [cbn; rewrite app_nil_r; reflexivity|].
  change (concat (repeat l (S (S n)))) with (l ++ concat (repeat l (S n))). set (t := concat (repeat l (S n))) in *.
  assert (T : t <> [] /\ hd_ok false t = hd_ok false l /\ forallb okc t = true).
  { unfold t. split; [|split].
    - cbn. destruct l; [contradiction|discriminate].
    - apply hd_app. exact N.
    - clear -O. generalize (S n). intros k. induction k as [|k IH]; [reflexivity|]. cbn. rewrite forallb_app, O. exact IH. }
  destruct T as (Nt & Ht & Ot). unfold good_text in *. rewrite hd_app, last_ok_app by assumption. rewrite Ht in IH.
  destruct (hd_ok false l) eqn:H; cbn [andb] in *; [|reflexivity]. rewrite bars_app by (assumption || congruence).
  rewrite <- andb_assoc, IH. destruct (single_bars l); reflexivity.
Qed.

(** *** Other characters *)
Lemma int_digits_some l : forall acc r z, int_digits acc r l = Some z -> exists b q, l = b ++ q /\ forallb okc b = true /\
  forallb (fun c => negb (text_digit c)) q = true /\ (r = false -> existsb text_digit b = true).
Proof.
  induction l as [|c l IH]; intros acc r z H.
  - exists [], []. repeat split. cbn in H. destruct r; [discriminate|discriminate H].
  - destruct (chars_kind c) as [Ed Eb]. cbn [int_digits] in H. rewrite <- Ed, <- Eb in H. destruct (text_digit c) eqn:D.
    + destruct (IH _ _ _ H) as (b & q & -> & O & Q & _). exists (c :: b), q. repeat split; try assumption; cbn [forallb existsb]; unfold okc at 1 || idtac; rewrite D; [exact O|reflexivity].
    + destruct (text_bar c && r) eqn:B.
      * apply andb_true_iff in B as [B ->]. destruct (IH _ _ _ H) as (b & q & -> & O & Q & _). exists (c :: b), q.
        repeat split; try assumption; try discriminate. cbn [forallb]. unfold okc at 1. rewrite B, orb_true_r. exact O.
      * destruct (r && forallb int_blank (c :: l)) eqn:F; [|discriminate H]. apply andb_true_iff in F as [-> F].
        exists [], (c :: l). repeat split; try discriminate. rewrite forallb_forall in *. intros x Ix. specialize (F x Ix).
        apply other_digit, blank_low, F.
Qed.
Lemma int_strip_split l : exists p, l = p ++ int_strip l /\ forallb (fun c => negb (text_digit c)) p = true.
Proof.
  induction l as [|c l (p & E & F)]; [exists []; split; reflexivity|]. cbn [int_strip]. destruct (int_blank c) eqn:B.
  - exists (c :: p). split; [cbn; rewrite <- E; reflexivity|]. cbn [forallb]. rewrite F, andb_true_r. apply other_digit, blank_low, B.
  - exists []. split; reflexivity.
Qed.
Lemma int_of_text_some l z : int_of_text l = Some z -> exists p b q, l = p ++ b ++ q /\ forallb okc b = true /\ existsb text_digit b = true /\
  forallb (fun c => negb (text_digit c)) p = true /\ forallb (fun c => negb (text_digit c)) q = true.
Proof.
  unfold int_of_text. destruct (int_strip_split l) as (p & E & F). destruct (int_strip l) as [|c r]; [discriminate|]. intros H.
  assert (X : forall y, int_digits 0 false r = Some y -> negb (text_digit c) = true -> exists p b q, l = p ++ b ++ q /\ forallb okc b = true /\ existsb text_digit b = true /\
    forallb (fun c => negb (text_digit c)) p = true /\ forallb (fun c => negb (text_digit c)) q = true).
  { intros y Hy Hc. destruct (int_digits_some _ _ _ _ Hy) as (b & q & -> & O & Q & B). exists (p ++ [c]), b, q. rewrite <- app_assoc.
    repeat split; try assumption; [exact (B eq_refl)|]. rewrite forallb_app, F. cbn [forallb andb]. rewrite Hc. reflexivity. }
  destruct (_ =? 43) eqn:E1; [apply (X z H), other_digit; lia|]. destruct (_ =? 45) eqn:E2.
  - destruct (int_digits 0 false r) as [y|] eqn:Ey; [|discriminate H]. apply (X y eq_refl), other_digit. lia.
  - destruct (int_digits_some _ _ _ _ H) as (b & q & Eb & O & Q & B). exists p, b, q. rewrite <- Eb. repeat split; try assumption. exact (B eq_refl).
Qed.
Lemma nth_repeated (l : list ascii) n m i x : (m < n)%nat -> nth_error l i = Some x -> nth_error (concat (repeat l n)) (m * length l + i) = Some x.
Proof.
  intros H E. assert (L : (i < length l)%nat) by (apply nth_error_Some; congruence). revert n H. induction m as [|m IH]; intros n H; (destruct n as [|n]; [lia|]); cbn [repeat concat].
  - cbn [Nat.mul Nat.add]. rewrite nth_error_app1 by exact L. exact E.
  - rewrite nth_error_app2 by lia. replace (S m * length l + i - length l)%nat with (m * length l + i)%nat by lia. apply IH. lia.
Qed.
Lemma inside (p b q : list ascii) i x : forallb (fun c => negb (text_digit c)) p = true -> forallb (fun c => negb (text_digit c)) q = true ->
  nth_error (p ++ b ++ q) i = Some x -> text_digit x = true -> (length p <= i < length p + length b)%nat.
Proof.
  intros P Q E D. rewrite forallb_forall in P, Q. destruct (Nat.lt_ge_cases i (length p)) as [L|L].
  - rewrite nth_error_app1 in E by exact L. apply nth_error_In, P in E. rewrite D in E. discriminate E.
  - rewrite nth_error_app2 in E by exact L. destruct (Nat.lt_ge_cases (i - length p) (length b)) as [L'|L']; [lia|].
    rewrite nth_error_app2 in E by exact L'. apply nth_error_In, Q in E. rewrite D in E. discriminate E.
Qed.
Lemma other_text l : forallb okc l = false -> int_of_text (concat (repeat l 10)) = None.
Proof.
  intros H. destruct (int_of_text _) as [z|] eqn:E; [exfalso|reflexivity]. destruct (int_of_text_some _ _ E) as (p & b & q & Et & O & B & P & Q).
  assert (X : exists i x, nth_error l i = Some x /\ okc x = false).
  { clear -H. induction l as [|c l IH]; [discriminate H|]. cbn in H. destruct (okc c) eqn:C; [|exists 0%nat, c; auto].
    destruct (IH H) as (i & x & Hx). exists (S i), x. exact Hx. }
  assert (Y : exists j d, nth_error l j = Some d /\ text_digit d = true).
  { apply existsb_exists in B as (d & Id & D). assert (It : In d (concat (repeat l 10))) by (rewrite Et; apply in_or_app; right; apply in_or_app; left; exact Id).
    apply in_concat in It as (l' & Il & Id'). apply repeat_spec in Il. subst l'. apply In_nth_error in Id' as [j Hj]. eauto. }
  destruct X as (i & x & Ex & Ox), Y as (j & d & Ed & Dd).
  assert (Li : (i < length l)%nat) by (apply nth_error_Some; congruence). assert (Lj : (j < length l)%nat) by (apply nth_error_Some; congruence).
  pose proof (nth_repeated l 10 0 j d ltac:(lia) Ed) as F0. pose proof (nth_repeated l 10 9 j d ltac:(lia) Ed) as F9.
  pose proof (nth_repeated l 10 1 i x ltac:(lia) Ex) as F1. rewrite Et in F0, F1, F9.
  pose proof (inside _ _ _ _ _ P Q F0 Dd) as I0. pose proof (inside _ _ _ _ _ P Q F9 Dd) as I9.
  rewrite nth_error_app2, nth_error_app1 in F1 by lia. apply nth_error_In in F1. rewrite forallb_forall in O. rewrite (O _ F1) in Ox. discriminate Ox.
Qed.

Lemma repeated_text s : int_of_text (text_times 10 s) = tenths_of_text s.
Proof.
  unfold text_times, tenths_of_text. generalize (list_ascii_of_string s). intros l. destruct l as [|c r] eqn:El; [reflexivity|]. rewrite <- El.
  assert (N : l <> []) by (rewrite El; discriminate). rewrite plain_good by exact N. destruct (forallb okc l) eqn:O; cbn [andb]; [|exact (other_text l O)].
  assert (Ot : forall k, forallb okc (concat (repeat l k)) = true).
  { intros k. induction k as [|k IH]; [reflexivity|]. cbn. rewrite forallb_app, O. exact IH. }
  rewrite <- (good_repeat l 9 N O). unfold digits_number. rewrite <- int_digits_ok by apply Ot.
  assert (Oc : okc c = true) by (rewrite El in O; apply andb_true_iff in O; apply O). apply okc_range in Oc.
  assert (E : concat (repeat l 10) = c :: (r ++ concat (repeat l 9))) by (change (concat (repeat l 10)) with (l ++ concat (repeat l 9)); rewrite El at 1; reflexivity).
  rewrite E. unfold int_of_text. cbn [int_strip]. replace (int_blank c) with false by (unfold int_blank; lia).
  replace (_ =? 43) with false by lia. replace (_ =? 45) with false by lia. reflexivity.
Qed.
