(** Proofs about text beyond ASCII. *)
From Coq Require Import String Ascii ZArith NArith List Bool Lia.
From Verif Require Import Py Base Msg Address Dpt Tables State Encode Decode Client ClientStream Unicode.
From Verif Require Import SpecMsg MsgProofs SpecUnicode.
Import ListNotations.
Open Scope Z_scope.

Ltac by_range :=
  repeat match goal with
  | |- context [if ?b then _ else _] =>
      first [replace b with true by (unfold within; lia) | replace b with false by (unfold within; lia)]
  end.

Lemma div_div c a b : 0 < a -> 0 < b -> c / (a * b) = c / a / b.
Proof. intros. symmetry. apply Z.div_div; lia. Qed.

Lemma utf8_char c r : scalar c -> utf8 (utf8_of c ++ r) = do t <- utf8 r; Ok (c :: t).
Proof.
  intros [R N]. unfold utf8_of.
  destruct (c <? 0x80) eqn:E1.
  { cbn [app utf8]. rewrite E1. reflexivity. }
  destruct (c <? 0x800) eqn:E2.
  { cbn [app utf8]. by_range. destruct (utf8 r); cbn [rbind]; [|reflexivity]. do 2 f_equal. lia. }
  assert (D4 : c / 4096 = c / 64 / 64) by (apply (div_div c 64 64); lia).
  destruct (c <? 0x10000) eqn:E3.
  { cbn [app utf8]. rewrite D4. set (q := c / 64) in *. assert (Q : c = 64 * q + c mod 64) by (unfold q; lia). clearbody q.
    set (x := c mod 64) in *. assert (X : 0 <= x < 64) by (unfold x; lia). clearbody x. clear D4.
    set (y := q mod 64) in *. set (p := q / 64) in *. assert (P : q = 64 * p + y /\ 0 <= y < 64) by (unfold p, y; lia). clearbody p y.
    replace (0xE0 + p <? 0x80) with false by lia. replace (within 0xC2 0xDF (0xE0 + p)) with false by (unfold within; lia).
    replace (within 0xE0 0xEF (0xE0 + p)) with true by (unfold within; lia).
    replace (within 0x80 0xBF (0x80 + x)) with true by (unfold within; lia). rewrite andb_true_r.
    assert (W : within (if 0xE0 + p =? 0xE0 then 0xA0 else 0x80) (if 0xE0 + p =? 0xED then 0x9F else 0xBF) (0x80 + y) = true).
    { unfold within. destruct (0xE0 + p =? 0xE0) eqn:A, (0xE0 + p =? 0xED) eqn:B; lia. }
    rewrite W. destruct (utf8 r); cbn [rbind]; [|reflexivity]. do 2 f_equal. lia. }
  assert (D6 : c / 262144 = c / 64 / 64 / 64) by (rewrite <- D4; apply (div_div c 4096 64); lia).
  cbn [app utf8]. rewrite D6, D4. clear D6 D4. set (q := c / 64) in *. set (x := c mod 64) in *.
  assert (Q : c = 64 * q + x /\ 0 <= x < 64) by (unfold q, x; lia). clearbody q x.
  set (p := q / 64) in *. set (y := q mod 64) in *. assert (P : q = 64 * p + y /\ 0 <= y < 64) by (unfold p, y; lia). clearbody p y.
  set (o := p / 64) in *. set (z := p mod 64) in *. assert (O : p = 64 * o + z /\ 0 <= z < 64) by (unfold o, z; lia). clearbody o z.
  replace (0xF0 + o <? 0x80) with false by lia. replace (within 0xC2 0xDF (0xF0 + o)) with false by (unfold within; lia).
  replace (within 0xE0 0xEF (0xF0 + o)) with false by (unfold within; lia).
  replace (within 0xF0 0xF4 (0xF0 + o)) with true by (unfold within; lia).
  replace (within 0x80 0xBF (0x80 + x)) with true by (unfold within; lia).
  replace (within 0x80 0xBF (0x80 + y)) with true by (unfold within; lia).
  assert (W : within (if 0xF0 + o =? 0xF0 then 0x90 else 0x80) (if 0xF0 + o =? 0xF4 then 0x8F else 0xBF) (0x80 + z) = true).
  { unfold within. destruct (0xF0 + o =? 0xF0) eqn:A, (0xF0 + o =? 0xF4) eqn:B; lia. }
  rewrite W. cbn [andb]. destruct (utf8 r); cbn [rbind]; [|reflexivity]. do 2 f_equal. lia.
Qed.
Lemma utf8_written t : Forall scalar t -> utf8 (written t) = Ok t.
Proof.
  induction 1 as [|c t Sc _ IH]; [reflexivity|]. unfold written in *. cbn [flat_map]. rewrite utf8_char, IH by exact Sc. reflexivity.
Qed.

Lemma of_2 b1 b2 : 0xC2 <= b1 <= 0xDF -> 0x80 <= b2 <= 0xBF ->
  let c := (b1 - 0xC0) * 64 + (b2 - 0x80) in scalar c /\ utf8_of c = [b1; b2].
Proof.
  intros A B c. split; [unfold scalar, c; lia|]. unfold utf8_of. replace (c <? 0x80) with false by (unfold c; lia).
  replace (c <? 0x800) with true by (unfold c; lia). unfold c. repeat (apply f_equal2; [lia|]). reflexivity.
Qed.
Lemma of_3 b1 b2 b3 : 0xE0 <= b1 <= 0xEF -> 0x80 <= b2 <= 0xBF -> 0x80 <= b3 <= 0xBF -> (b1 = 0xE0 -> 0xA0 <= b2) -> (b1 = 0xED -> b2 <= 0x9F) ->
  let c := (b1 - 0xE0) * 4096 + (b2 - 0x80) * 64 + (b3 - 0x80) in scalar c /\ utf8_of c = [b1; b2; b3].
Proof.
  intros A B C D E c. split; [unfold scalar, c; lia|]. unfold utf8_of. replace (c <? 0x80) with false by (unfold c; lia).
  replace (c <? 0x800) with false by (unfold c; lia). replace (c <? 0x10000) with true by (unfold c; lia).
  assert (D4 : c / 4096 = c / 64 / 64) by (apply (div_div c 64 64); lia). rewrite D4.
  assert (Q : c / 64 = (b1 - 0xE0) * 64 + (b2 - 0x80)) by (unfold c; lia). rewrite Q. clear Q D4.
  repeat (apply f_equal2; [unfold c; lia|]). reflexivity.
Qed.
Lemma of_4 b1 b2 b3 b4 : 0xF0 <= b1 <= 0xF4 -> 0x80 <= b2 <= 0xBF -> 0x80 <= b3 <= 0xBF -> 0x80 <= b4 <= 0xBF ->
  (b1 = 0xF0 -> 0x90 <= b2) -> (b1 = 0xF4 -> b2 <= 0x8F) ->
  let c := (b1 - 0xF0) * 262144 + (b2 - 0x80) * 4096 + (b3 - 0x80) * 64 + (b4 - 0x80) in scalar c /\ utf8_of c = [b1; b2; b3; b4].
Proof.
  intros A B C D E F c. split; [unfold scalar, c; lia|]. unfold utf8_of. replace (c <? 0x80) with false by (unfold c; lia).
  replace (c <? 0x800) with false by (unfold c; lia). replace (c <? 0x10000) with false by (unfold c; lia).
  assert (D4 : c / 4096 = c / 64 / 64) by (apply (div_div c 64 64); lia).
  assert (D6 : c / 262144 = c / 64 / 64 / 64) by (rewrite <- D4; apply (div_div c 4096 64); lia). rewrite D6, D4.
  assert (Q : c / 64 = ((b1 - 0xF0) * 64 + (b2 - 0x80)) * 64 + (b3 - 0x80)) by (unfold c; lia). rewrite Q.
  assert (P : (((b1 - 0xF0) * 64 + (b2 - 0x80)) * 64 + (b3 - 0x80)) / 64 = (b1 - 0xF0) * 64 + (b2 - 0x80)) by lia. rewrite P. clear P Q D4 D6.
  repeat (apply f_equal2; [unfold c; lia|]). reflexivity.
Qed.

Lemma utf8_ok n : forall l t, (length l <= n)%nat -> octets l -> utf8 l = Ok t -> Forall scalar t /\ l = written t.
Proof.
  induction n as [|n IH]; intros l t L O E.
  { destruct l; [|cbn in L; lia]. injection E as <-. split; [constructor|reflexivity]. }
  destruct l as [|b1 r1]; [injection E as <-; split; [constructor|reflexivity]|].
  apply octets_cons in O. destruct O as [O1 O]. cbn [length] in L. cbn [utf8] in E.
  assert (Step : forall c bs r t', scalar c -> utf8_of c = bs -> (length r <= n)%nat -> octets r -> (do t0 <- utf8 r; Ok (c :: t0)) = Ok t' ->
                 Forall scalar t' /\ bs ++ r = written t').
  { intros c bs r t' Sc Hb Lr Or Er. destruct (utf8 r) as [t0|] eqn:U; [|discriminate Er]. injection Er as <-.
    destruct (IH r t0 Lr Or U) as [F W]. split; [constructor; assumption|]. unfold written in *. cbn [flat_map]. rewrite Hb, W. reflexivity. }
  destruct (b1 <? 0x80) eqn:E1.
  { unfold is_octet in O1. apply (Step b1 [b1] r1 t); auto; [unfold scalar; lia| |lia]. unfold utf8_of. rewrite E1. reflexivity. }
  destruct r1 as [|b2 r2]; [discriminate E|]. apply octets_cons in O. destruct O as [O2 O]. cbn [length] in L.
  destruct (within 0xC2 0xDF b1) eqn:W1.
  { destruct (within 0x80 0xBF b2) eqn:W2; [|discriminate E]. unfold within in *.
    destruct (of_2 b1 b2 ltac:(lia) ltac:(lia)) as [Sc U]. exact (Step _ _ r2 t Sc U ltac:(lia) O E). }
  destruct r2 as [|b3 r3]; [discriminate E|]. apply octets_cons in O. destruct O as [O3 O]. cbn [length] in L.
  destruct (within 0xE0 0xEF b1) eqn:W2.
  { destruct (_ && _) eqn:W3 in E; [|discriminate E]. apply andb_prop in W3. destruct W3 as [W3 W4]. unfold within in *.
    destruct (of_3 b1 b2 b3) as [Sc U]; [lia|destruct (b1 =? 0xE0) eqn:?, (b1 =? 0xED) eqn:?; lia|lia|destruct (b1 =? 0xE0) eqn:?; lia|destruct (b1 =? 0xED) eqn:?; lia|].
    exact (Step _ _ r3 t Sc U ltac:(lia) O E). }
  destruct r3 as [|b4 r4]; [discriminate E|]. apply octets_cons in O. destruct O as [O4 O]. cbn [length] in L.
  destruct (_ && _) eqn:W3 in E; [|discriminate E]. apply andb_prop in W3. destruct W3 as [W3 W6]. apply andb_prop in W3. destruct W3 as [W3 W5].
  apply andb_prop in W3. destruct W3 as [W3 W4]. unfold within in W3, W4, W5, W6.
  destruct (of_4 b1 b2 b3 b4) as [Sc U]; [lia|destruct (b1 =? 0xF0) eqn:?, (b1 =? 0xF4) eqn:?; lia|lia|lia|destruct (b1 =? 0xF0) eqn:?; lia|destruct (b1 =? 0xF4) eqn:?; lia|].
  exact (Step _ _ r4 t Sc U ltac:(lia) O E).
Qed.
Lemma utf8_err n : forall l e, (length l <= n)%nat -> utf8 l = Err e -> e = ValueError.
Proof.
  induction n as [|n IH]; intros l e L E.
  { destruct l; [discriminate E|cbn in L; lia]. }
  assert (Step : forall (c : Z) r, (length r <= n)%nat -> (do t0 <- utf8 r; Ok (c :: t0)) = Err e -> e = ValueError).
  { intros c r Lr Er. destruct (utf8 r) as [t0|x] eqn:U; [discriminate Er|]. injection Er as <-. exact (IH r x Lr U). }
  destruct l as [|b1 r1]; [discriminate E|]. cbn [length utf8] in L, E.
  destruct (b1 <? 0x80); [apply (Step b1 r1); [lia|exact E]|].
  destruct r1 as [|b2 r2]; [congruence|]. cbn [length] in L. destruct (within 0xC2 0xDF b1).
  { destruct (within 0x80 0xBF b2); [eapply Step; [|exact E]; lia|congruence]. }
  destruct r2 as [|b3 r3]; [congruence|]. cbn [length] in L. destruct (within 0xE0 0xEF b1).
  { destruct (_ && _) in E; [eapply Step; [|exact E]; lia|congruence]. }
  destruct r3 as [|b4 r4]; [congruence|]. cbn [length] in L. destruct (_ && _) in E; [eapply Step; [|exact E]; lia|congruence].
Qed.

(** ** Digits *)
Lemma other_digit_some zeros c v : other_digit zeros c = Some v -> exists z, In z zeros /\ 0 <= v <= 9 /\ c = z + v.
Proof.
  induction zeros as [|z r IH]; cbn; [discriminate|]. destruct (within z (z + 9) c) eqn:W.
  - intros [= <-]. unfold within in W. exists z. split; [now left|lia].
  - intros E. destruct (IH E) as (y & I & R). exists y. split; [now right|exact R].
Qed.
Lemma other_digit_none zeros c : other_digit zeros c = None -> forall z, In z zeros -> ~ (z <= c <= z + 9).
Proof.
  induction zeros as [|z r IH]; cbn; [tauto|]. destruct (within z (z + 9) c) eqn:W; [discriminate|].
  intros E y [<-|I]; [unfold within in W; lia|exact (IH E y I)].
Qed.
Lemma worth_value zeros c v : scripts zeros -> (worth zeros c v <-> hexval_point zeros c = Some v).
Proof.
  intros [Hi Ha]. unfold hexval_point. split.
  - intros W. inversion W as [v' R E|v' R E|v' R E|z v' I R E]; subst v' c.
    1-3: repeat match goal with |- context [if ?b then _ else _] => destruct b eqn:? ; unfold within in *; try (f_equal; lia); try lia end.
    specialize (Hi z I). assert (N1 : within 48 57 (z + v) = false) by (unfold within; lia). assert (N2 : within 65 70 (z + v) = false) by (unfold within; lia).
    assert (N3 : within 97 102 (z + v) = false) by (unfold within; lia). rewrite N1, N2, N3.
    destruct (other_digit zeros (z + v)) as [v'|] eqn:E.
    + apply other_digit_some in E. destruct E as (y & Iy & Ry & E). f_equal.
      destruct (Z.lt_trichotomy y z) as [L|[L|L]]; [pose proof (Ha y z Iy I L); lia|lia|pose proof (Ha z y I Iy L); lia].
    + exfalso. apply (other_digit_none zeros _ E z I). lia.
  - destruct (within 48 57 c) eqn:A; [intros [= <-]; unfold within in A; constructor 1; lia|].
    destruct (within 65 70 c) eqn:B; [intros [= <-]; unfold within in B; constructor 2; lia|].
    destruct (within 97 102 c) eqn:C; [intros [= <-]; unfold within in C; constructor 3; lia|].
    intros E. apply other_digit_some in E. destruct E as (z & I & R & E). exact (Worth_other zeros c z v I R E).
Qed.
Lemma worth_range zeros c v : worth zeros c v -> 0 <= v <= 15.
Proof. intros W. inversion W; lia. Qed.

Lemma hexval_points_ok zeros l vs : scripts zeros -> (hexval_points zeros l = Ok vs <-> Forall2 (worth zeros) l vs).
Proof.
  intros Sc. revert vs. induction l as [|c l IH]; intros vs; cbn.
  - split; [intros [= <-]; constructor|intros H; inversion H; reflexivity].
  - destruct (hexval_point zeros c) as [v|] eqn:E.
    + apply (worth_value _ _ _ Sc) in E. destruct (hexval_points zeros l) as [ws|e] eqn:R; cbn; split.
      * intros [= <-]. constructor; [exact E|]. now apply IH.
      * intros H. inversion H as [|? w ? ws' Wv Hr]; subst. apply IH in Hr. injection Hr as <-.
        apply (worth_value _ _ _ Sc) in E, Wv. congruence.
      * discriminate.
      * intros H. inversion H as [|? w ? ws' Wv Hr]; subst. apply IH in Hr. discriminate Hr.
    + split; [discriminate|]. intros H. inversion H as [|? w ? ws' Wv Hr]; subst. apply (worth_value _ _ _ Sc) in Wv. congruence.
Qed.
Lemma hexval_points_err zeros l e : hexval_points zeros l = Err e -> e = ValueError /\ exists c, In c l /\ hexval_point zeros c = None.
Proof.
  induction l as [|c l IH]; cbn; [discriminate|]. destruct (hexval_point zeros c) as [v|] eqn:E.
  - destruct (hexval_points zeros l) as [ws|x]; cbn; [discriminate|]. intros [= ->]. destruct (IH eq_refl) as (-> & d & I & N). eauto.
  - intros [= <-]. eauto.
Qed.
Lemma two_step {A} (P : list A -> Prop) : P [] -> (forall a, P [a]) -> (forall a b r, P r -> P (a :: b :: r)) -> forall l, P l.
Proof.
  intros P0 P1 P2 l. enough (H : P l /\ forall a, P (a :: l)) by tauto. induction l as [|a l [I1 I2]]; split; auto.
Qed.
Lemma in_evens_odds {A} (c : A) l : In c (evens l) \/ In c (odds l) <-> In c l.
Proof. induction l as [|a|a b r IH] using two_step; cbn; tauto. Qed.
Lemma Forall2_halves {A B} (R : A -> B -> Prop) l vs : Forall2 R l vs <-> Forall2 R (evens l) (evens vs) /\ Forall2 R (odds l) (odds vs).
Proof.
  revert vs. induction l as [|a|a b r IH] using two_step; intros vs.
  - destruct vs as [|v [|w vs]]; cbn; split; intros H; try (split; constructor); try constructor; try (inversion H; fail); destruct H as [H _]; inversion H.
  - destruct vs as [|v [|w vs]]; cbn; split; intros H; try (inversion H; fail); try (destruct H as [H H']; inversion H; fail).
    + split; [exact H|constructor].
    + apply H.
    + inversion H as [|? ? ? ? _ H2]. inversion H2.
    + destruct H as [_ H]. inversion H.
  - destruct vs as [|v [|w vs]]; cbn; split; intros H; try (inversion H; fail); try (destruct H as [H H']; inversion H; fail).
    + inversion H as [|? ? ? ? _ H2]. inversion H2.
    + destruct H as [_ H]. inversion H.
    + inversion H as [|? ? ? ? X T2]. inversion T2 as [|? ? ? ? Y T3]. subst. apply IH in T3. destruct T3. split; constructor; assumption.
    + destruct H as [H1 H2]. inversion H1; inversion H2; subst. constructor; [assumption|]. constructor; [assumption|]. apply IH. auto.
Qed.
Lemma zip_pairs vs : Forall (fun v => 0 <= v <= 15) vs -> zipmap (evens vs) (odds vs) = pairs vs.
Proof.
  induction vs as [|a|a b r IH] using two_step; intros F; [reflexivity|reflexivity|]. inversion F as [|? ? Ra F2]; inversion F2 as [|? ? Rb F3]; subst.
  cbn [evens odds zipmap pairs]. rewrite IH by exact F3. f_equal. rewrite octect_of_nibbles_arith. lia.
Qed.
Lemma worth_all zeros l vs : Forall2 (worth zeros) l vs -> Forall (fun v => 0 <= v <= 15) vs.
Proof. induction 1 as [|c v l vs W _ IH]; constructor; [exact (worth_range _ _ _ W)|exact IH]. Qed.
Lemma halves_join {A} (a b : list A) : (length a = length b \/ length a = S (length b))%nat -> exists l, evens l = a /\ odds l = b.
Proof.
  revert b. induction a as [|x a IH]; intros b L.
  - destruct b; [exists []; auto|cbn in L; lia].
  - destruct b as [|y b]; cbn in L.
    + destruct a; [exists [x]; auto|cbn in L; lia].
    + destruct (IH b ltac:(lia)) as (l & <- & <-). exists (x :: y :: l). auto.
Qed.
Lemma halves_length {A} (l : list A) : (length (evens l) = length (odds l) \/ length (evens l) = S (length (odds l)))%nat.
Proof. induction l as [|a|a b r IH] using two_step; cbn; lia. Qed.
Lemma Forall2_len {A B} (R : A -> B -> Prop) l m : Forall2 R l m -> length l = length m.
Proof. induction 1; cbn; congruence. Qed.

Lemma octects_points_ok zeros t m : scripts zeros -> (octects_of_points zeros t = Ok m <-> exists vs, Forall2 (worth zeros) t vs /\ m = pairs vs).
Proof.
  intros Sc. unfold octects_of_points. split.
  - destruct (hexval_points zeros (evens t)) as [hs|] eqn:H; [|discriminate]. destruct (hexval_points zeros (odds t)) as [ls|] eqn:L; [|discriminate].
    cbn. intros [= <-]. apply (hexval_points_ok _ _ _ Sc) in H, L.
    destruct (halves_join hs ls) as (vs & Eh & El). { rewrite <- (Forall2_len _ _ _ H), <- (Forall2_len _ _ _ L). apply halves_length. }
    assert (F : Forall2 (worth zeros) t vs) by (apply Forall2_halves; rewrite Eh, El; auto).
    exists vs. split; [exact F|]. rewrite <- Eh, <- El. apply zip_pairs. exact (worth_all _ _ _ F).
  - intros (vs & F & ->). pose proof (proj1 (Forall2_halves _ _ _) F) as [H L]. apply (hexval_points_ok _ _ _ Sc) in H, L. rewrite H, L. cbn.
    rewrite zip_pairs; [reflexivity|exact (worth_all _ _ _ F)].
Qed.
Lemma octects_points_err zeros t e : octects_of_points zeros t = Err e -> e = ValueError /\ exists c, In c t /\ hexval_point zeros c = None.
Proof.
  unfold octects_of_points. destruct (hexval_points zeros (evens t)) as [hs|x] eqn:H; cbn.
  - destruct (hexval_points zeros (odds t)) as [ls|x] eqn:L; cbn; [discriminate|]. intros [= ->]. apply hexval_points_err in L.
    destruct L as (-> & c & I & N). split; [reflexivity|]. exists c. split; [|exact N]. apply in_evens_odds. now right.
  - intros [= ->]. apply hexval_points_err in H. destruct H as (-> & c & I & N). split; [reflexivity|]. exists c. split; [|exact N]. apply in_evens_odds. now left.
Qed.

Lemma line_ok zeros line : scripts zeros -> octets line ->
  match line_octects zeros line with
  | Ok m => exists t vs, Forall scalar t /\ line = written t /\ Forall2 (worth zeros) (removelast t) vs /\ m = pairs vs
  | Err e => e = ValueError /\ forall t, Forall scalar t -> line = written t -> exists c, In c (removelast t) /\ forall v, ~ worth zeros c v
  end.
Proof.
  intros Sc O. unfold line_octects. destruct (utf8 line) as [t|e] eqn:U; cbn [rbind].
  - destruct (utf8_ok (length line) line t ltac:(lia) O U) as [F W].
    destruct (octects_of_points zeros (removelast t)) as [m|e] eqn:E.
    + apply (octects_points_ok _ _ _ Sc) in E. destruct E as (vs & Fv & ->). exists t, vs. auto.
    + apply octects_points_err in E. destruct E as (-> & c & I & N). split; [reflexivity|]. intros t' F' W'. rewrite W', (utf8_written _ F') in U. injection U as ->.
      exists c. split; [exact I|]. intros v Wv. apply (worth_value _ _ _ Sc) in Wv. congruence.
  - split; [exact (utf8_err (length line) line e ltac:(lia) U)|]. intros t F W. rewrite W, (utf8_written _ F) in U. discriminate U.
Qed.

(** ** Against the reader of Client.v *)
Lemma hexval_char c : hexval c = hexval_point [] (Z.of_N (N_of_ascii c)).
Proof. reflexivity. Qed.
Lemma make_points s : make_from_str s = octects_of_points [] (map (fun c => Z.of_N (N_of_ascii c)) (list_ascii_of_string s)).
Proof.
  unfold make_from_str, stringtooctects, octects_of_points.
  assert (Hv : forall l, hexvals l = hexval_points [] (map (fun c => Z.of_N (N_of_ascii c)) l)).
  { induction l as [|c l IH]; [reflexivity|]. cbn [hexvals hexval_points map]. rewrite <- hexval_char, IH. reflexivity. }
  assert (He : forall l : list ascii, evens (map (fun c => Z.of_N (N_of_ascii c)) l) = map (fun c => Z.of_N (N_of_ascii c)) (evens l)).
  { intros l. induction l as [|a|a b r IH] using two_step; [reflexivity|reflexivity|]. cbn. rewrite IH. reflexivity. }
  assert (Ho : forall l : list ascii, odds (map (fun c => Z.of_N (N_of_ascii c)) l) = map (fun c => Z.of_N (N_of_ascii c)) (odds l)).
  { intros l. induction l as [|a|a b r IH] using two_step; [reflexivity|reflexivity|]. cbn. rewrite IH. reflexivity. }
  rewrite He, Ho, <- !Hv. reflexivity.
Qed.
Lemma butlast_app l x : butlast (string_of_list_ascii (l ++ [x])) = string_of_list_ascii l.
Proof.
  induction l as [|a l IH]; [reflexivity|]. cbn [app string_of_list_ascii butlast]. rewrite IH.
  destruct l; reflexivity.
Qed.
Lemma butlast_removelast l : butlast (string_of_list_ascii l) = string_of_list_ascii (removelast l).
Proof.
  destruct l as [|a l] using rev_ind; [reflexivity|]. rewrite butlast_app, removelast_last. reflexivity.
Qed.
Lemma digit_point v : 0 <= v <= 15 -> hexval_point [] (Z.of_N (N_of_ascii (digit v))) = Some v.
Proof.
  intros R. assert (H : In v [0; 1; 2; 3; 4; 5; 6; 7; 8; 9; 10; 11; 12; 13; 14; 15]) by (cbn [In]; lia).
  cbn [In] in H. repeat (destruct H as [<-|H]; [reflexivity|]). destruct H.
Qed.
Lemma no_scripts : scripts [].
Proof. split; intros; cbn in *; tauto. Qed.
Lemma make_digits vs : Forall (fun v => 0 <= v <= 15) vs -> make_from_str (string_of_list_ascii (map digit vs)) = Ok (pairs vs).
Proof.
  intros F. rewrite make_points, list_ascii_of_string_of_list_ascii. apply (octects_points_ok _ _ _ no_scripts). exists vs. split; [|reflexivity].
  induction F as [|v vs R _ IH]; [constructor|]. cbn [map]. constructor; [|exact IH]. apply (worth_value _ _ _ no_scripts). apply digit_point. exact R.
Qed.
Lemma same_read zeros t vs x st : scripts zeros -> Forall scalar t -> Forall2 (worth zeros) (removelast t) vs ->
  usb_read_bytes zeros (written t) st = usb_read (string_of_list_ascii (map digit vs ++ [x])) st.
Proof.
  intros Sc F W. unfold usb_read_bytes, usb_read, line_octects, mbind, mlift. rewrite (utf8_written t F). cbn [rbind].
  rewrite butlast_app, (make_digits vs (worth_all _ _ _ W)), (proj2 (octects_points_ok zeros (removelast t) (pairs vs) Sc) (ex_intro _ vs (conj W eq_refl))). reflexivity.
Qed.
Lemma unreadable zeros line st : scripts zeros -> octets line ->
  (forall t vs, Forall scalar t -> line = written t -> ~ Forall2 (worth zeros) (removelast t) vs) ->
  usb_read_bytes zeros line st = (Err ValueError, st).
Proof.
  intros Sc O N. unfold usb_read_bytes, mbind, mlift. pose proof (line_ok zeros line Sc O) as H. destruct (line_octects zeros line) as [m|e].
  - destruct H as (t & vs & F & W & Fv & _). destruct (N t vs F W Fv).
  - destruct H as [-> _]. reflexivity.
Qed.
Lemma readable_or_not zeros line : scripts zeros -> octets line ->
  (exists t vs, Forall scalar t /\ line = written t /\ Forall2 (worth zeros) (removelast t) vs) \/
  (forall t vs, Forall scalar t -> line = written t -> ~ Forall2 (worth zeros) (removelast t) vs).
Proof.
  intros Sc O. pose proof (line_ok zeros line Sc O) as H. destruct (line_octects zeros line) as [m|e].
  - destruct H as (t & vs & F & W & Fv & _). left. eauto.
  - right. destruct H as [_ H]. intros t vs F W Fv. destruct (H t F W) as (c & I & N).
    clear -I N Fv. induction Fv as [|a v l vs Wa _ IH]; [destruct I|]. destruct I as [->|I]; [exact (N v Wa)|exact (IH I)].
Qed.
(** Lines below 128. *)
Lemma written_ascii t : Forall (fun b => 0 <= b < 128) t -> Forall scalar t /\ written t = t.
Proof.
  induction 1 as [|b t R _ [IH1 IH2]]; [split; constructor|]. split; [constructor; [unfold scalar; lia|exact IH1]|].
  unfold written in *. cbn [flat_map]. rewrite IH2. unfold utf8_of. replace (b <? 0x80) with true by lia. reflexivity.
Qed.
Lemma points_plain zeros t : scripts zeros -> (forall c, In c t -> forall z, In z zeros -> ~ (z <= c <= z + 9)) -> octects_of_points zeros t = octects_of_points [] t.
Proof.
  intros Sc N. unfold octects_of_points.
  assert (H : forall l, (forall c, In c l -> In c t) -> hexval_points zeros l = hexval_points [] l).
  { induction l as [|c l IH]; intros Hl; [reflexivity|]. cbn [hexval_points]. rewrite IH by (intros d I; apply Hl; now right).
    replace (hexval_point zeros c) with (hexval_point [] c); [reflexivity|]. unfold hexval_point. destruct (within 48 57 c), (within 65 70 c), (within 97 102 c); try reflexivity.
    destruct (other_digit zeros c) as [v|] eqn:E; [|reflexivity]. apply other_digit_some in E. destruct E as (z & I & R & ->).
    exfalso. apply (N (z + v) (Hl _ (or_introl eq_refl)) z I). lia. }
  rewrite !H; [reflexivity| |]; intros c I; apply in_evens_odds; auto.
Qed.
Lemma decoded_points line : octets line -> map (fun c => Z.of_N (N_of_ascii c)) (list_ascii_of_string (decoded line)) = line.
Proof.
  intros O. unfold decoded. rewrite list_ascii_of_string_of_list_ascii, map_map. induction O as [|b l R _ IH]; [reflexivity|]. cbn [map]. rewrite IH. f_equal.
  unfold is_octet in R. rewrite N_ascii_embedding by lia. lia.
Qed.
Lemma removelast_map {A B} (f : A -> B) l : removelast (map f l) = map f (removelast l).
Proof. destruct l as [|a l] using rev_ind; [reflexivity|]. rewrite map_app. cbn [map]. rewrite !removelast_last. reflexivity. Qed.
Lemma usb_read_points line st : octets line ->
  usb_read (decoded line) st = (act m <- mlift (octects_of_points [] (removelast line)); act data <- decode_msg CPlain m; act _ <- mlift (dres_repr data); mret data) st.
Proof.
  intros O. unfold usb_read. unfold mbind at 1 4, mlift at 1 3. 
  replace (make_from_str (butlast (decoded line))) with (octects_of_points [] (removelast line)); [reflexivity|].
  rewrite make_points. unfold decoded. rewrite butlast_removelast, list_ascii_of_string_of_list_ascii, <- removelast_map.
  pose proof (decoded_points line O) as D. unfold decoded in D. rewrite list_ascii_of_string_of_list_ascii in D. rewrite D. reflexivity.
Qed.
Lemma removelast_in {A} (c : A) l : In c (removelast l) -> In c l.
Proof. destruct l as [|a l] using rev_ind; [auto|]. rewrite removelast_last. intros I. apply in_or_app. now left. Qed.
Lemma ascii_read zeros line st : scripts zeros -> Forall (fun b => 0 <= b < 128) line -> usb_read_bytes zeros line st = usb_read (decoded line) st.
Proof.
  intros Sc F. destruct (written_ascii line F) as [Sl W].
  rewrite usb_read_points by (eapply Forall_impl; [|exact F]; unfold is_octet; intros; lia).
  unfold usb_read_bytes, line_octects. rewrite <- W at 1. rewrite (utf8_written line Sl). cbn [rbind].
  rewrite (points_plain zeros (removelast line) Sc); [reflexivity|]. intros c I z Iz. apply removelast_in in I. rewrite Forall_forall in F. specialize (F c I).
  pose proof (proj1 Sc z Iz). lia.
Qed.
(** A byte above 127 comes from a character above 127. *)
Lemma written_high t b : Forall scalar t -> In b (written t) -> 128 <= b -> exists c, In c t /\ 128 <= c.
Proof.
  intros F I L. unfold written in I. apply in_flat_map in I. destruct I as (c & Ic & Ib). exists c. split; [exact Ic|].
  destruct (Z_lt_le_dec c 128) as [H|H]; [|exact H]. exfalso. unfold utf8_of in Ib. replace (c <? 0x80) with true in Ib by lia.
  destruct Ib as [<-|[]]. lia.
Qed.
Lemma written_app a b : written (a ++ b) = written a ++ written b.
Proof. unfold written. induction a as [|c a IH]; [reflexivity|]. cbn [app flat_map]. rewrite IH, app_assoc. reflexivity. Qed.
Lemma last_char t l : Forall scalar t -> written t = l ++ [10] -> exists t0, t = t0 ++ [10] /\ written t0 = l.
Proof.
  intros F W. destruct t as [|c t] using rev_ind; [destruct l; discriminate W|]. clear IHt. apply Forall_app in F. destruct F as [_ F]. inversion F as [|? ? [R N] _]; subst.
  rewrite written_app in W. unfold written at 2 in W. cbn [flat_map] in W. rewrite app_nil_r in W.
  unfold utf8_of in W. destruct (c <? 0x80) eqn:E1.
  { apply app_inj_tail in W. destruct W as [<- ->]. eauto. }
  exfalso. destruct (c <? 0x800) eqn:E2.
  { change [0xC0 + c / 64; 0x80 + c mod 64] with ([0xC0 + c / 64] ++ [0x80 + c mod 64]) in W. rewrite app_assoc in W. apply app_inj_tail in W. lia. }
  destruct (c <? 0x10000) eqn:E3.
  { change [0xE0 + c / 4096; 0x80 + c / 64 mod 64; 0x80 + c mod 64] with ([0xE0 + c / 4096; 0x80 + c / 64 mod 64] ++ [0x80 + c mod 64]) in W.
    rewrite app_assoc in W. apply app_inj_tail in W. lia. }
  change [0xF0 + c / 262144; 0x80 + c / 4096 mod 64; 0x80 + c / 64 mod 64; 0x80 + c mod 64]
    with ([0xF0 + c / 262144; 0x80 + c / 4096 mod 64; 0x80 + c / 64 mod 64] ++ [0x80 + c mod 64]) in W.
  rewrite app_assoc in W. apply app_inj_tail in W. lia.
Qed.
Lemma latin_read zeros text st : scripts zeros -> octets text ->
  (forall t c z, Forall scalar t -> text = written t -> In c t -> In z zeros -> ~ (z <= c <= z + 9)) ->
  usb_read_bytes zeros (text ++ [10]) st = usb_read (decoded (text ++ [10])) st.
Proof.
  intros Sc O N. destruct (Forall_dec (fun b => b < 128) (fun b => Z_lt_dec b 128) text) as [L|L].
  - apply ascii_read; [exact Sc|]. apply Forall_app. split; [|constructor; [lia|constructor]]. unfold octets in O. rewrite Forall_forall in *. intros b I. specialize (O b I). specialize (L b I). unfold is_octet in O. lia.
  - assert (H : exists b, In b text /\ 128 <= b).
    { apply Exists_Forall_neg in L; [|intros x; lia]. apply Exists_exists in L. destruct L as (b & I & R). exists b. split; [exact I|lia]. }
    destruct H as (b & I & R).
    assert (O1 : octets (text ++ [10])) by (apply Forall_app; split; [exact O|constructor; [unfold is_octet; lia|constructor]]).
    transitivity (@Err dres ValueError, st).
    + apply unreadable; [exact Sc|exact O1|]. intros t vs F W Fv. symmetry in W. destruct (last_char t text F W) as (t0 & -> & <-).
      apply Forall_app in F. destruct F as [F _]. rewrite removelast_last in Fv. destruct (written_high t0 b F I R) as (c & Ic & Rc).
      assert (Hc : exists v, worth zeros c v). { clear -Ic Fv. induction Fv as [|a v l vs Wa _ IH]; [destruct Ic|]. destruct Ic as [<-|Ic]; eauto. }
      destruct Hc as (v & Hv). inversion Hv as [| | |z v' Iz Rv E]; try lia. subst. apply (N t0 (z + v) z F eq_refl Ic Iz). lia.
    + rewrite usb_read_points by exact O1. rewrite removelast_last. unfold mbind, mlift.
      destruct (octects_of_points [] text) as [m|e] eqn:E.
      * exfalso. apply (octects_points_ok _ _ _ no_scripts) in E. destruct E as (vs & Fv & _).
        clear -I R Fv. induction Fv as [|a v l vs Wa _ IH]; [destruct I|]. destruct I as [<-|I]; [|exact (IH I)]. inversion Wa; cbn in *; lia || tauto.
      * apply octects_points_err in E. destruct E as [-> _]. reflexivity.
Qed.
