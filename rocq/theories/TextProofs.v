(** Proofs about text forms (C73). *)
From Coq Require Import String Ascii ZArith List Bool NArith Lia.
From Verif Require Import Py Base Msg Address Dpt Tables Text.
From Verif Require Import SpecMsg SpecInet SpecText MsgProofs InetProofs.
Import ListNotations.
Open Scope Z_scope.

Notation L := list_ascii_of_string.

Lemma L_app s t : L (s ++ t)%string = L s ++ L t.
Proof. induction s as [|c s IH]; [reflexivity|]. cbn. f_equal. exact IH. Qed.
Lemma L_inj s t : L s = L t -> s = t.
Proof. intros H. rewrite <- (string_of_list_ascii_of_string s), <- (string_of_list_ascii_of_string t). congruence. Qed.
Lemma app_assoc_s (a b c : string) : ((a ++ b) ++ c)%string = (a ++ b ++ c)%string.
Proof. induction a as [|x a IH]; [reflexivity|]. cbn. f_equal. exact IH. Qed.

Lemma cons_inj {A} (x y : A) l m : x :: l = y :: m -> x = y /\ l = m.
Proof. intros E. injection E. auto. Qed.

(** Splitting at separators. *)
Lemma first_sep (c : ascii) : forall x y u w, ~ In c x -> ~ In c y -> x ++ c :: u = y ++ c :: w -> x = y /\ u = w.
Proof.
  induction x as [|a x IH]; intros [|b y] u w Hx Hy E; cbn in E.
  - injection E as ->. auto.
  - injection E as -> _. elim Hy. left. reflexivity.
  - injection E as -> _. elim Hx. left. reflexivity.
  - injection E as -> E. apply IH in E; [|intros I; apply Hx; right; exact I|intros I; apply Hy; right; exact I].
    destruct E as [-> ->]. auto.
Qed.
Lemma last_sep (c : ascii) x y u w : ~ In c u -> ~ In c w -> x ++ c :: u = y ++ c :: w -> x = y /\ u = w.
Proof.
  intros Hu Hw E. apply (f_equal (@rev ascii)) in E. rewrite !rev_app_distr in E. cbn [rev] in E.
  rewrite <- !app_assoc in E. cbn [app] in E. apply first_sep in E.
  - destruct E as [E1 E2]. split; [rewrite <- (rev_involutive x), <- (rev_involutive y); congruence|].
    rewrite <- (rev_involutive u), <- (rev_involutive w). congruence.
  - rewrite <- in_rev. exact Hu.
  - rewrite <- in_rev. exact Hw.
Qed.

(** Decimal numbers. *)
Definition dec_char_ok (d : Z) : bool :=
  match nth_error (L "0123456789abcdef") (Z.to_nat d) with Some c => Ascii.eqb c (decdigit d) | None => false end.
Lemma dec_chars : forallb dec_char_ok (map Z.of_nat (seq 0 10)) = true.
Proof. vm_compute. reflexivity. Qed.
Lemma decdigit_of d : 0 <= d < 10 -> digit_of 10 (decdigit d) d.
Proof.
  intros H. split; [exact H|]. left. pose proof dec_chars as T. rewrite forallb_forall in T.
  specialize (T d). unfold dec_char_ok in T. destruct (nth_error _ _) as [c|] eqn:E.
  - f_equal. apply Ascii.eqb_eq. apply T. rewrite in_map_iff. exists (Z.to_nat d). split; [lia|]. apply in_seq. lia.
  - assert (false = true) by (apply T; rewrite in_map_iff; exists (Z.to_nat d); split; [lia|apply in_seq; lia]). discriminate.
Qed.
Lemma digit_of_fun c d d' : digit_of 10 c d -> digit_of 10 c d' -> d = d'.
Proof. intros H H'. apply digit_of_value in H; [|lia]. apply digit_of_value in H'; [|lia]. congruence. Qed.
Lemma digit_of_decdigit c d : digit_of 10 c d -> c = decdigit d.
Proof.
  intros H. assert (R : 0 <= d < 10) by exact (proj1 H). pose proof (decdigit_of d R) as [_ D].
  destruct H as [_ H]. assert (C : d = 0 \/ d = 1 \/ d = 2 \/ d = 3 \/ d = 4 \/ d = 5 \/ d = 6 \/ d = 7 \/ d = 8 \/ d = 9) by lia.
  repeat match type of C with _ \/ _ => destruct C as [->|C] | _ => subst d end;
    cbn in H; destruct H as [H|H]; injection H as <-; reflexivity.
Qed.

Lemma reads_snoc t c v d : reads 10 t v -> digit_of 10 c d -> reads 10 (t ++ [c]) (10 * v + d).
Proof.
  intros (ds & F & ->) D. exists (ds ++ [d]). split; [apply Forall2_app; [exact F|constructor; [exact D|constructor]]|].
  rewrite fold_left_app. reflexivity.
Qed.
Lemma reads_unsnoc t c w : reads 10 (t ++ [c]) w -> exists v d, reads 10 t v /\ digit_of 10 c d /\ w = 10 * v + d.
Proof.
  intros (ds & F & ->). apply Forall2_app_inv_l in F. destruct F as (d1 & d2 & F1 & F2 & ->).
  inversion F2 as [|? d ? ? D F3]; subst. inversion F3; subst.
  exists (fold_left (fun n d => 10 * n + d) d1 0), d. split; [exists d1; auto|]. split; [exact D|].
  rewrite fold_left_app. reflexivity.
Qed.
Lemma reads_fun t v w : reads 10 t v -> reads 10 t w -> v = w.
Proof.
  intros (ds & F & ->) (es & G & ->). f_equal. revert es G. induction F as [|c d t ds D F IH]; intros es G.
  - inversion G. reflexivity.
  - inversion G as [|? e ? es' E G']; subst. f_equal; [exact (digit_of_fun c d e D E)|apply IH; exact G'].
Qed.

Lemma dec_steps_spec : forall fuel v, 0 <= v < 2 ^ Z.of_nat fuel -> (0 < fuel)%nat -> natural_text (L (dec_steps fuel v)) v.
Proof.
  induction fuel as [|k IH]; intros v Hv Hf; [lia|]. cbn [dec_steps]. rewrite L_app. cbn [list_ascii_of_string].
  assert (M : 0 <= v mod 10 < 10) by (apply Z.mod_pos_bound; lia).
  destruct (Z.ltb_spec v 10) as [SM|SM].
  - cbn [list_ascii_of_string app]. split; [discriminate|]. split.
    + exists [v mod 10]. split; [constructor; [apply decdigit_of; exact M|constructor]|]. cbn. rewrite Z.mod_small by lia. lia.
    + intros r E. injection E as _ <-. reflexivity.
  - assert (K : (0 < k)%nat) by (destruct k; [cbn in Hv; lia|lia]).
    assert (B : 0 <= v / 10 < 2 ^ Z.of_nat k).
    { split; [apply Z.div_pos; lia|]. apply Z.div_lt_upper_bound; [lia|].
      replace (Z.of_nat (S k)) with (Z.of_nat k + 1) in Hv by lia. rewrite Z.pow_add_r in Hv by lia. lia. }
    specialize (IH (v / 10) B K). destruct IH as (N & R & Z0). split; [|split].
    + destruct (L (dec_steps k (v / 10))); discriminate.
    + replace v with (10 * (v / 10) + v mod 10) at 3 by (symmetry; apply Z.div_mod; lia).
      apply reads_snoc; [exact R|apply decdigit_of; exact M].
    + intros r E. destruct (L (dec_steps k (v / 10))) as [|c t] eqn:T; [congruence|]. cbn [app] in E.
      injection E as -> _. specialize (Z0 t eq_refl). subst t.
      assert (v / 10 = 0); [|pose proof (Z.div_mod v 10 ltac:(lia)); lia].
      apply (reads_fun ["0"%char]); [exact R|]. exists [0]. split; [constructor; [exact (decdigit_of 0 ltac:(lia))|constructor]|reflexivity].
Qed.
Lemma dec_nat_spec v : 0 <= v -> natural_text (L (dec_nat v)) v.
Proof.
  intros H. unfold dec_nat. apply dec_steps_spec; [|lia]. split; [exact H|].
  destruct (Z.eq_dec v 0) as [->|N]; [cbn; lia|].
  pose proof (Z.log2_spec v ltac:(lia)) as [_ U]. pose proof (Z.log2_nonneg v).
  replace (Z.of_nat (S (Z.to_nat (Z.log2 v)))) with (Z.succ (Z.log2 v)) by lia. exact U.
Qed.
Lemma dec_spec v : decimal (dec v) v.
Proof.
  unfold dec, decimal. destruct (Z.ltb_spec v 0) as [N|N].
  - right. split; [exact N|]. exists (L (dec_nat (- v))). split; [reflexivity|]. apply dec_nat_spec. lia.
  - left. split; [lia|]. apply dec_nat_spec. lia.
Qed.
(** Every number has one decimal text. *)
Lemma natural_unique : forall t1 t2 v, natural_text t1 v -> natural_text t2 v -> t1 = t2.
Proof.
  induction t1 as [|c1 t1 IH] using rev_ind; intros t2 v (N1 & R1 & Z1) (N2 & R2 & Z2); [congruence|].
  destruct t2 as [|c2 t2 _] using rev_ind; [congruence|].
  apply reads_unsnoc in R1. destruct R1 as (v1 & d1 & R1 & D1 & E1).
  apply reads_unsnoc in R2. destruct R2 as (v2 & d2 & R2 & D2 & E2).
  pose proof (proj1 D1). pose proof (proj1 D2).
  assert (v1 = v2) by lia. assert (d1 = d2) by lia. subst v2 d2.
  f_equal; [|f_equal; rewrite (digit_of_decdigit c1 d1 D1), (digit_of_decdigit c2 d1 D2); reflexivity].
  assert (Lead : forall t c, t <> [] -> reads 10 t v1 -> (forall r, t ++ [c] = "0"%char :: r -> r = []) -> natural_text t v1).
  { intros t c Nt Rt Zt. split; [exact Nt|]. split; [exact Rt|]. intros r ->. specialize (Zt (r ++ [c]) eq_refl).
    destruct r; discriminate. }
  assert (Zero : forall t c, reads 10 t 0 -> (forall r, t ++ [c] = "0"%char :: r -> r = []) -> t = []).
  { intros [|x t] c Rt Zt; [reflexivity|]. exfalso. destruct Rt as (ds & F & E). inversion F as [|? d ? ds' D F']; subst.
    assert (P : Forall (fun d => 0 <= d) ds').
    { clear - F'. induction F' as [|? ? ? ? D ? IH]; constructor; [exact (proj1 (proj1 D))|exact IH]. }
    cbn [fold_left] in E.
    assert (G : forall l a, 0 <= a -> Forall (fun d => 0 <= d) l -> a <= fold_left (fun n d => 10 * n + d) l a).
    { clear. induction l as [|d l IH]; intros a Ha Hl; [cbn; lia|]. cbn [fold_left]. pose proof (Forall_inv Hl) as H0. cbn beta in H0.
      specialize (IH (10 * a + d) ltac:(lia) (Forall_inv_tail Hl)). lia. }
    pose proof (proj1 D). specialize (G ds' (10 * 0 + d) ltac:(lia) P).
    assert (d = 0) by lia. subst d. rewrite (digit_of_decdigit x 0 D) in Zt. specialize (Zt (t ++ [c]) eq_refl). destruct t; discriminate. }
  destruct t1 as [|x1 t1'] eqn:T1.
  - destruct R1 as (ds & F & Ev). inversion F; subst. cbn in R2. symmetry. apply (Zero t2 c2); [|exact Z2].
    exact R2.
  - rewrite <- T1 in *. assert (T1N : t1 <> []) by (rewrite T1; discriminate).
    destruct t2 as [|x2 t2'] eqn:T2.
    + destruct R2 as (ds & F & Ev). inversion F; subst. elim T1N. apply (Zero _ c1); [exact R1|exact Z1].
    + rewrite <- T2 in *. apply (IH t2 v1); [apply (Lead _ c1); assumption|apply (Lead _ c2); [rewrite T2; discriminate|exact R2|exact Z2]].
Qed.
Lemma digit_not_minus d : ~ digit_of 10 "-" d.
Proof. intros D. apply digit_of_value in D; [|lia]. vm_compute in D. discriminate. Qed.
Lemma natural_not_minus r v : ~ natural_text ("-"%char :: r) v.
Proof. intros (_ & (ds & F & _) & _). inversion F; subst. eapply digit_not_minus. eassumption. Qed.
Lemma decimal_unique s1 s2 v : decimal s1 v -> decimal s2 v -> s1 = s2.
Proof.
  intros [[P1 N1]|[P1 (r1 & E1 & N1)]] [[P2 N2]|[P2 (r2 & E2 & N2)]]; try lia; apply L_inj.
  - exact (natural_unique _ _ v N1 N2).
  - rewrite E1, E2. f_equal. exact (natural_unique _ _ (- v) N1 N2).
Qed.
Lemma decimal_fun s v w : decimal s v -> decimal s w -> v = w.
Proof.
  intros [[P1 N1]|[P1 (r1 & E1 & N1)]] [[P2 N2]|[P2 (r2 & E2 & N2)]].
  - exact (reads_fun _ _ _ (proj1 (proj2 N1)) (proj1 (proj2 N2))).
  - rewrite E2 in N1. elim (natural_not_minus _ _ N1).
  - rewrite E1 in N2. elim (natural_not_minus _ _ N2).
  - rewrite E1 in E2. injection E2 as ->. pose proof (reads_fun _ _ _ (proj1 (proj2 N1)) (proj1 (proj2 N2))). lia.
Qed.
Lemma dec_inj v w : dec v = dec w -> v = w.
Proof. intros E. apply (decimal_fun (dec v)); [apply dec_spec|rewrite E; apply dec_spec]. Qed.
(** The characters of a decimal number. *)
Definition is_dec_char (c : ascii) : Prop := In c (L "-0123456789").
Lemma digit_of_char c d : digit_of 10 c d -> is_dec_char c.
Proof.
  intros D. rewrite (digit_of_decdigit c d D). pose proof (proj1 D).
  assert (C : d = 0 \/ d = 1 \/ d = 2 \/ d = 3 \/ d = 4 \/ d = 5 \/ d = 6 \/ d = 7 \/ d = 8 \/ d = 9) by lia.
  unfold is_dec_char. repeat match type of C with _ \/ _ => destruct C as [->|C] | _ => subst d end; vm_compute; tauto.
Qed.
Lemma reads_chars t v : reads 10 t v -> Forall is_dec_char t.
Proof. intros (ds & F & _). induction F as [|c d t ds D F IH]; constructor; [exact (digit_of_char c d D)|exact IH]. Qed.
Lemma dec_chars_ok v : Forall is_dec_char (L (dec v)).
Proof.
  destruct (dec_spec v) as [[_ N]|[_ (r & E & N)]].
  - exact (reads_chars _ _ (proj1 (proj2 N))).
  - rewrite E. constructor; [left; reflexivity|exact (reads_chars _ _ (proj1 (proj2 N)))].
Qed.
Lemma dec_nonempty v : L (dec v) <> [].
Proof.
  destruct (dec_spec v) as [[_ N]|[_ (r & E & N)]]; [exact (proj1 N)|]. rewrite E. discriminate.
Qed.

(** Hexadecimal numbers. *)
Lemma hexpad_octets : forall m, octets m -> hexpad (2 * length m) (big_endian m) = text_of m.
Proof.
  intros m. induction m as [|o m IH] using rev_ind; intros H; [reflexivity|].
  apply octets_app in H. destruct H as [H1 H2]. pose proof (Forall_inv H2) as Ho.
  rewrite app_length. cbn [length]. replace (2 * (length m + 1))%nat with (S (S (2 * length m))) by lia.
  rewrite big_endian_snoc. cbn [hexpad]. unfold is_octet in Ho.
  replace ((256 * big_endian m + o) / 16 / 16) with (big_endian m)
    by (rewrite Z.div_div by lia; rewrite Z.mul_comm, Z.div_add_l by lia; rewrite (Z.div_small o) by lia; lia).
  rewrite IH by exact H1.
  replace (((256 * big_endian m + o) / 16) mod 16) with (o / 16).
  2:{ replace (256 * big_endian m + o) with ((16 * big_endian m) * 16 + o) by lia. rewrite Z.div_add_l by lia.
      rewrite Z.mul_comm. rewrite Z.add_comm, Z.mod_add by lia. symmetry. apply Z.mod_small.
      split; [apply Z.div_pos; lia|apply Z.div_lt_upper_bound; lia]. }
  replace ((256 * big_endian m + o) mod 16) with (o mod 16).
  2:{ replace (256 * big_endian m + o) with (o + (16 * big_endian m) * 16) by lia. rewrite Z.mod_add by lia. reflexivity. }
  destruct (nibbles o Ho) as (A & B & _). rewrite (proj1 (digit_facts _ A)), (proj1 (digit_facts _ B)).
  apply L_inj. unfold text_of. rewrite !L_app, !list_ascii_of_string_of_list_ascii, flat_map_app. cbn [list_ascii_of_string flat_map app].
  rewrite <- app_assoc. reflexivity.
Qed.
Lemma hexdigit_inj a b : 0 <= a < 16 -> 0 <= b < 16 -> hexdigit a = hexdigit b -> a = b.
Proof.
  intros A B. rewrite (proj1 (digit_facts a A)), (proj1 (digit_facts b B)). intros E.
  pose proof (proj2 (digit_facts a A)) as H. rewrite E, (proj2 (digit_facts b B)) in H. congruence.
Qed.
Lemma hexpad_length w : forall v, length (L (hexpad w v)) = w.
Proof. induction w as [|w IH]; intros v; [reflexivity|]. cbn [hexpad]. rewrite L_app, app_length, IH. cbn. lia. Qed.
Lemma hexpad_inj w : forall u v, 0 <= u < 16 ^ Z.of_nat w -> 0 <= v < 16 ^ Z.of_nat w -> L (hexpad w u) = L (hexpad w v) -> u = v.
Proof.
  induction w as [|w IH]; intros u v Hu Hv E; [cbn in Hu, Hv; lia|]. cbn [hexpad] in E. rewrite !L_app in E.
  cbn [list_ascii_of_string] in E. apply app_inj_tail in E. destruct E as [E1 E2].
  apply hexdigit_inj in E2; [|apply Z.mod_pos_bound; lia|apply Z.mod_pos_bound; lia].
  replace (Z.of_nat (S w)) with (Z.of_nat w + 1) in Hu, Hv by lia. rewrite Z.pow_add_r in Hu, Hv by lia.
  apply IH in E1.
  - pose proof (Z.div_mod u 16 ltac:(lia)). pose proof (Z.div_mod v 16 ltac:(lia)). lia.
  - split; [apply Z.div_pos; lia|apply Z.div_lt_upper_bound; lia].
  - split; [apply Z.div_pos; lia|apply Z.div_lt_upper_bound; lia].
Qed.
Lemma hexdigit_char v : 0 <= v < 16 -> In (hexdigit v) (L "0123456789ABCDEF").
Proof. intros H. rewrite (proj1 (digit_facts v H)). unfold digit. apply nth_In. cbn. lia. Qed.
Lemma hexpad_chars w : forall v, Forall (fun c => In c (L "0123456789ABCDEF")) (L (hexpad w v)).
Proof.
  induction w as [|w IH]; intros v; [constructor|]. cbn [hexpad]. rewrite L_app. apply Forall_app. split; [apply IH|].
  constructor; [apply hexdigit_char; apply Z.mod_pos_bound; lia|constructor].
Qed.

(** Addresses. *)
Definition addr_chars : list ascii := L "(0x 123456789ABCDEF-/)".
Lemma sub_chars (l : list ascii) : (forall c, In c l -> In c addr_chars) -> forall t, Forall (fun c => In c l) t -> Forall (fun c => In c addr_chars) t.
Proof. intros H t F. eapply Forall_impl; [|exact F]. exact H. Qed.
Lemma in_sub (l m : list ascii) : forallb (fun c => existsb (Ascii.eqb c) m) l = true -> forall c, In c l -> In c m.
Proof.
  intros H c I. rewrite forallb_forall in H. specialize (H c I). rewrite existsb_exists in H. destruct H as (d & D & E).
  apply Ascii.eqb_eq in E. subst d. exact D.
Qed.
Lemma addr_text_chars g a : Forall (fun c => In c addr_chars) (L (addr_text g a)).
Proof.
  assert (D : forall v, Forall (fun c => In c addr_chars) (L (dec v))).
  { intros v. apply (sub_chars (L "-0123456789")); [apply in_sub; vm_compute; reflexivity|exact (dec_chars_ok v)]. }
  assert (X : forall w v, Forall (fun c => In c addr_chars) (L (hexpad w v))).
  { intros w v. apply (sub_chars (L "0123456789ABCDEF")); [apply in_sub; vm_compute; reflexivity|apply hexpad_chars]. }
  assert (K : forall s, forallb (fun c => existsb (Ascii.eqb c) addr_chars) (L s) = true -> Forall (fun c => In c addr_chars) (L s)).
  { intros s H. apply Forall_forall. intros c I. exact (in_sub _ _ H c I). }
  unfold addr_text. destruct (g (a_ref a)).
  - unfold group_text. rewrite !L_app. repeat (apply Forall_app; split); try apply D; try apply X; apply K; vm_compute; reflexivity.
  - unfold individual_text. rewrite !L_app. apply Forall_app. split; [apply K; vm_compute; reflexivity|apply X].
Qed.
Lemma addr_text_not g a c : ~ In c addr_chars -> ~ In c (L (addr_text g a)).
Proof. intros N I. pose proof (addr_text_chars g a) as F. rewrite Forall_forall in F. apply N. apply F. exact I. Qed.
Lemma addr_text_inj g1 g2 a b : sixteen_bits a -> sixteen_bits b -> addr_text g1 a = addr_text g2 b ->
  seen_address g1 a = seen_address g2 b.
Proof.
  intros Ha Hb E. unfold seen_address. unfold addr_text in E. apply (f_equal L) in E.
  unfold sixteen_bits in Ha, Hb.
  destruct (g1 (a_ref a)), (g2 (a_ref b)); unfold group_text, individual_text in E; rewrite !L_app in E;
    cbn [list_ascii_of_string app] in E; try discriminate E.
  - apply (f_equal (skipn 3)) in E. cbn [skipn] in E. apply (f_equal (firstn 4)) in E. rewrite !firstn_app, !hexpad_length, !Nat.sub_diag, !firstn_O in E.
    rewrite !app_nil_r, !firstn_all2 in E by (rewrite hexpad_length; lia). f_equal. apply (hexpad_inj 4); [cbn; lia|cbn; lia|exact E].
  - apply (f_equal (skipn 2)) in E. cbn [skipn] in E. f_equal. apply (hexpad_inj 4); [cbn; lia|cbn; lia|exact E].
Qed.
Lemma addr_text_nonempty g a : L (addr_text g a) <> [].
Proof. unfold addr_text, group_text, individual_text. destruct (g (a_ref a)); discriminate. Qed.

(** ASAPs. *)
Lemma dec_not v c : ~ is_dec_char c -> ~ In c (L (dec v)).
Proof. intros N I. pose proof (dec_chars_ok v) as F. rewrite Forall_forall in F. apply N. apply F. exact I. Qed.
Definition shown_name (n : option string) : option string := match n with Some EmptyString => None | x => x end.
Lemma asap_text_eq a : asap_text a = match shown_name (asap_name a) with
  | None => dec (asap_value a) | Some n => (dec (asap_value a) ++ " (" ++ n ++ ")")%string end.
Proof. unfold asap_text, shown_name. destruct (asap_name a) as [[|c n]|]; reflexivity. Qed.
Lemma seen_asap_eq a : seen_asap a = (asap_value a, shown_name (asap_name a)).
Proof. unfold seen_asap. destruct (asap_name a) as [[|c n]|]; reflexivity. Qed.
Lemma asap_text_inj a b : asap_text a = asap_text b -> seen_asap a = seen_asap b.
Proof.
  rewrite !asap_text_eq, !seen_asap_eq.
  assert (NS : forall v, ~ In " "%char (L (dec v))) by (intros v; apply dec_not; vm_compute; intuition discriminate).
  intros E. apply (f_equal L) in E.
  destruct (shown_name (asap_name a)) as [n|], (shown_name (asap_name b)) as [m|]; rewrite ?L_app in E; cbn [list_ascii_of_string app] in E.
  - apply first_sep in E; [|apply NS|apply NS]. destruct E as [E1 E2]. injection E2 as E2. apply app_inj_tail in E2.
    rewrite (dec_inj _ _ (L_inj _ _ E1)), (L_inj _ _ (proj1 E2)). reflexivity.
  - elim (NS (asap_value b)). rewrite <- E. apply in_app_iff. right. left. reflexivity.
  - elim (NS (asap_value a)). rewrite E. apply in_app_iff. right. left. reflexivity.
  - rewrite (dec_inj _ _ (L_inj _ _ E)). reflexivity.
Qed.

(** Lists of addresses. *)
Lemma joined_inj g : forall l m, Forall sixteen_bits l -> Forall sixteen_bits m -> joined g l = joined g m ->
  map (seen_address g) l = map (seen_address g) m.
Proof.
  assert (NC : forall a, ~ In ","%char (L (addr_text g a))) by (intros a; apply addr_text_not; vm_compute; intuition discriminate).
  assert (J : forall a x r, joined g (a :: x :: r) = (addr_text g a ++ ", " ++ joined g (x :: r))%string) by reflexivity.
  induction l as [|a l IH]; intros [|b m] Hl Hm E.
  - reflexivity.
  - exfalso. apply (f_equal L) in E. destruct m as [|y m]; [|rewrite J in E]; cbn [joined] in E; rewrite ?L_app in E;
      apply (addr_text_nonempty g b); destruct (L (addr_text g b)); [reflexivity|discriminate E|reflexivity|discriminate E].
  - exfalso. apply (f_equal L) in E. destruct l as [|y l]; [|rewrite J in E]; cbn [joined] in E; rewrite ?L_app in E;
      apply (addr_text_nonempty g a); destruct (L (addr_text g a)); [reflexivity|discriminate E|reflexivity|discriminate E].
  - pose proof (Forall_inv Hl) as Ha. pose proof (Forall_inv Hm) as Hb.
    destruct l as [|x l], m as [|y m].
    + cbn [joined] in E. cbn [map]. rewrite (addr_text_inj g g a b Ha Hb E). reflexivity.
    + exfalso. rewrite J in E. cbn [joined] in E. apply (NC a). rewrite E, L_app. apply in_app_iff. right. left. reflexivity.
    + exfalso. rewrite J in E. cbn [joined] in E. apply (NC b). rewrite <- E, L_app. apply in_app_iff. right. left. reflexivity.
    + rewrite !J in E. apply (f_equal L) in E. rewrite !L_app in E. cbn [list_ascii_of_string app] in E.
      apply first_sep in E; [|apply NC|apply NC]. destruct E as [E1 E2]. injection E2 as E2.
      change (map (seen_address g) (a :: x :: l)) with (seen_address g a :: map (seen_address g) (x :: l)).
      change (map (seen_address g) (b :: y :: m)) with (seen_address g b :: map (seen_address g) (y :: m)).
      f_equal; [exact (addr_text_inj g g a b Ha Hb (L_inj _ _ E1))|].
      apply IH; [exact (Forall_inv_tail Hl)|exact (Forall_inv_tail Hm)|exact (L_inj _ _ E2)].
Qed.
Lemma list_text_inj g l m : Forall sixteen_bits l -> Forall sixteen_bits m -> list_text g l = list_text g m ->
  map (seen_address g) l = map (seen_address g) m.
Proof.
  intros Hl Hm E. apply joined_inj; [exact Hl|exact Hm|]. unfold list_text in E. apply (f_equal L) in E.
  rewrite !L_app in E. cbn [list_ascii_of_string app] in E. injection E as E. apply app_inj_tail in E. apply L_inj. exact (proj1 E).
Qed.
Lemma list_text_not g c l : ~ In c (addr_chars ++ L "[], ") -> ~ In c (L (list_text g l)).
Proof.
  intros N I. unfold list_text in I. rewrite !L_app in I.
  assert (K : forall x, In x (L "[], ") -> c <> x) by (intros x X ->; apply N; apply in_app_iff; right; exact X).
  assert (J : ~ In c (L (joined g l))).
  { clear I. induction l as [|a l IH]; [intros []|]. assert (A : ~ In c (L (addr_text g a))).
    { apply addr_text_not. intros I. apply N. apply in_app_iff. left. exact I. }
    destruct l as [|b l]; [exact A|]. change (joined g (a :: b :: l)) with (addr_text g a ++ ", " ++ joined g (b :: l))%string.
    rewrite !L_app, !in_app_iff. intros [I|[I|I]]; [exact (A I)| |exact (IH I)].
    cbn in I. destruct I as [I|[I|[]]]; symmetry in I; revert I; apply K; cbn; auto. }
  rewrite !in_app_iff in I. destruct I as [I|[I|I]]; [|exact (J I)|].
  - cbn in I. destruct I as [I|[]]. symmetry in I. revert I. apply K. cbn. auto.
  - cbn in I. destruct I as [I|[]]. symmetry in I. revert I. apply K. cbn. auto.
Qed.

(** Lines. *)
Lemma lines_cons l rest : one_line l -> lines (l ++ newline ++ rest) = l :: lines rest.
Proof.
  unfold one_line. induction l as [|c l IH]; intros N; [reflexivity|]. cbn [append lines].
  destruct (Ascii.eqb_spec c line_end) as [->|C]; [elim N; left; reflexivity|].
  rewrite IH; [reflexivity|]. intros I. apply N. right. exact I.
Qed.
Lemma one_line_app a b : one_line a -> one_line b -> one_line (a ++ b).
Proof. unfold one_line. intros A B. rewrite L_app, in_app_iff. intros [I|I]; [exact (A I)|exact (B I)]. Qed.
Lemma one_line_dec v : one_line (dec v).
Proof. apply dec_not. vm_compute. intuition discriminate. Qed.
Lemma one_line_addr g a : one_line (addr_text g a).
Proof. apply addr_text_not. vm_compute. intuition discriminate. Qed.
Lemma one_line_list g l : one_line (list_text g l).
Proof. apply list_text_not. vm_compute. intuition discriminate. Qed.
Lemma one_line_asap a : match asap_name a with Some n => one_line n | None => True end -> one_line (asap_text a).
Proof.
  rewrite asap_text_eq. unfold shown_name. destruct (asap_name a) as [[|c n]|]; intros H; try apply one_line_dec.
  apply one_line_app; [apply one_line_dec|]. apply one_line_app; [vm_compute; intuition discriminate|].
  apply one_line_app; [exact H|vm_compute; intuition discriminate].
Qed.
Lemma one_line_class c : one_line (class_name c).
Proof. destruct c; vm_compute; intuition discriminate. Qed.
Ltac fixed := vm_compute; intuition discriminate.
Lemma one_line_row k e : one_line k -> one_line e -> one_line (row k e).
Proof. intros K E. unfold row. repeat apply one_line_app; try assumption; fixed. Qed.

Fixpoint rows_from (g : N -> bool) (k : Z) (l : list address) : list string :=
  match l with [] => [] | a :: r => row (dec k) (addr_text g a) :: rows_from g (k + 1) r end.
Lemma at_rows_lines g : forall l k, lines (at_rows g k l) = rows_from g k l ++ [""%string].
Proof.
  induction l as [|a l IH]; intros k; [reflexivity|]. cbn [at_rows rows_from app].
  rewrite <- IH. rewrite <- lines_cons.
  - f_equal. unfold row. rewrite !app_assoc_s. reflexivity.
  - apply one_line_row; [apply one_line_dec|apply one_line_addr].
Qed.
Definition at_head (g : N -> bool) (t : address_table) : list string :=
  [("AddressTable: individual address: " ++ addr_text g (at_ia t) ++ ", max_size=" ++ dec (at_max t))%string; ""%string;
   row "tsap" "individual address"; row "0" (addr_text g (at_ia t));
   row "tsap" "group address (hex_free_style two_level_style three_level_style)"].
Lemma at_text_lines g t : lines (at_text g t) = at_head g t ++ rows_from g 1 (at_addrs t) ++ [""%string].
Proof.
  unfold at_text, at_head. rewrite <- at_rows_lines. cbn [app].
  assert (H1 : one_line ("AddressTable: individual address: " ++ addr_text g (at_ia t) ++ ", max_size=" ++ dec (at_max t))).
  { repeat apply one_line_app; try apply one_line_addr; try apply one_line_dec; fixed. }
  rewrite <- (lines_cons (row "tsap" "group address (hex_free_style two_level_style three_level_style)")) by fixed.
  rewrite <- (lines_cons (row "0" (addr_text g (at_ia t)))) by (apply one_line_row; [fixed|apply one_line_addr]).
  rewrite <- (lines_cons (row "tsap" "individual address")) by fixed.
  rewrite <- (lines_cons "") by fixed. rewrite <- (lines_cons _ _ H1).
  f_equal. unfold row. rewrite ?app_assoc_s. reflexivity.
Qed.

Lemma app_prefix (p a b : string) : (p ++ a)%string = (p ++ b)%string -> a = b.
Proof. induction p as [|c p IH]; intros H; [exact H|]. cbn in H. injection H as H. exact (IH H). Qed.
(** Rows whose entries contain no [>] are told apart. *)
Lemma row_inj k1 e1 k2 e2 : ~ In ">"%char (L e1) -> ~ In ">"%char (L e2) -> row k1 e1 = row k2 e2 -> k1 = k2 /\ e1 = e2.
Proof.
  intros N1 N2 E. unfold row in E. apply app_prefix in E. apply (f_equal L) in E. rewrite !L_app in E.
  cbn [list_ascii_of_string app] in E.
  assert (S : forall k e, L k ++ " "%char :: "-"%char :: ">"%char :: " "%char :: L e = (L k ++ [" "%char; "-"%char]) ++ ">"%char :: " "%char :: L e)
    by (intros k e; rewrite <- app_assoc; reflexivity).
  rewrite !S in E. apply last_sep in E.
  - destruct E as [E1 E2]. injection E2 as E2. apply app_inv_tail in E1. split; apply L_inj; assumption.
  - intros [I|I]; [discriminate|exact (N1 I)].
  - intros [I|I]; [discriminate|exact (N2 I)].
Qed.
(** Rows whose keys contain no blank are told apart. *)
Lemma row_inj_key k1 e1 k2 e2 : ~ In " "%char (L k1) -> ~ In " "%char (L k2) -> row k1 e1 = row k2 e2 -> k1 = k2 /\ e1 = e2.
Proof.
  intros N1 N2 E. unfold row in E. apply app_prefix in E. apply (f_equal L) in E. rewrite !L_app in E.
  cbn [list_ascii_of_string app] in E. apply first_sep in E; [|exact N1|exact N2].
  destruct E as [E1 E2]. injection E2 as E2. split; apply L_inj; assumption.
Qed.
Lemma dec_no_blank v : ~ In " "%char (L (dec v)).
Proof. apply dec_not. fixed. Qed.
Lemma decimal_dec s v : decimal s v -> s = dec v.
Proof. intros H. exact (decimal_unique s (dec v) v H (dec_spec v)). Qed.

Lemma rows_from_in g k s : forall l n, In (row (dec k) s) (rows_from g n l) <->
  exists i a, nth_error l i = Some a /\ k = n + Z.of_nat i /\ s = addr_text g a.
Proof.
  induction l as [|a l IH]; intros n; cbn [rows_from].
  - split; [intros []|]. intros ([|i] & a & E & _); discriminate.
  - cbn [In]. rewrite IH. split.
    + intros [E|(i & b & E & -> & ->)].
      * apply row_inj_key in E; [|apply dec_no_blank|apply dec_no_blank]. destruct E as [E <-]. apply dec_inj in E. subst k.
        exists 0%nat, a. split; [reflexivity|]. split; [lia|reflexivity].
      * exists (S i), b. split; [exact E|]. split; [lia|reflexivity].
    + intros ([|i] & b & E & -> & ->).
      * injection E as <-. left. rewrite Z.add_0_r. reflexivity.
      * right. exists i, b. split; [exact E|]. split; [lia|reflexivity].
Qed.
Lemma not_dec (s : string) k : ~ Forall is_dec_char (L s) -> s <> dec k.
Proof. intros N ->. apply N. apply dec_chars_ok. Qed.
Lemma at_shows g t k s entry : 0 <= k -> decimal s k ->
  (In (row s entry) (lines (at_text g t)) <-> exists a, at_get_address t (Some k) = Ok a /\ entry = addr_text g a).
Proof.
  intros Hk D. rewrite (decimal_dec s k D). clear s D. rewrite at_text_lines, !in_app_iff, rows_from_in. unfold at_head. cbn [In].
  assert (T : "tsap"%string <> dec k).
  { apply not_dec. intros F. pose proof (Forall_inv F) as X. revert X. vm_compute. intuition discriminate. }
  split.
  - intros [[E|[E|[E|[E|[E|[]]]]]]|[(i & a & E & -> & ->)|[E|[]]]].
    + discriminate E.
    + discriminate E.
    + apply row_inj_key in E; [elim T; exact (proj1 E)|fixed|apply dec_no_blank].
    + apply row_inj_key in E; [|fixed|apply dec_no_blank]. destruct E as [E <-].
      change "0"%string with (dec 0) in E. apply dec_inj in E. subst k. exists (at_ia t). split; reflexivity.
    + apply row_inj_key in E; [elim T; exact (proj1 E)|fixed|apply dec_no_blank].
    + exists a. split; [|reflexivity]. unfold at_get_address. destruct (Z.leb_spec 1 (1 + Z.of_nat i)); [|lia].
      rewrite znth_nth by lia. replace (Z.to_nat (1 + Z.of_nat i - 1)) with i by lia. rewrite E. reflexivity.
    + discriminate E.
  - intros (a & E & ->). unfold at_get_address in E. destruct (Z.leb_spec 1 k) as [K|K].
    + right. left. rewrite znth_nth in E by lia. destruct (nth_error _ _) as [b|] eqn:N; [|discriminate]. injection E as ->.
      exists (Z.to_nat (k - 1)), a. split; [exact N|]. split; [lia|reflexivity].
    + left. right. right. right. left. injection E as ->. replace k with 0 by lia. reflexivity.
Qed.

Lemma addr_no_gt g a : ~ In ">"%char (L (addr_text g a)).
Proof. apply addr_text_not. fixed. Qed.
Lemma rows_from_inj g : forall l m k r1 r2, Forall sixteen_bits l -> Forall sixteen_bits m ->
  rows_from g k l ++ ""%string :: r1 = rows_from g k m ++ ""%string :: r2 -> map (seen_address g) l = map (seen_address g) m.
Proof.
  induction l as [|a l IH]; intros [|b m] k r1 r2 Hl Hm E; cbn [rows_from app] in E; try discriminate E; [reflexivity|].
  injection E as E1 E2. cbn [map]. f_equal.
  - apply addr_text_inj; [exact (Forall_inv Hl)|exact (Forall_inv Hm)|]. apply app_prefix in E1. apply (app_prefix " -> ") in E1. exact E1.
  - exact (IH m (k + 1) r1 r2 (Forall_inv_tail Hl) (Forall_inv_tail Hm) E2).
Qed.
Lemma at_lines_inj g t u : table_sixteen t -> table_sixteen u -> lines (at_text g t) = lines (at_text g u) ->
  seen_table g t = seen_table g u.
Proof.
  intros [It Lt] [Iu Lu] E. rewrite !at_text_lines in E. unfold at_head in E. cbn [app] in E.
  injection E as E1 E2 E3. unfold seen_table.
  assert (A : addr_text g (at_ia t) = addr_text g (at_ia u)) by (apply L_inj; congruence).
  rewrite A in E1. apply app_prefix in E1. apply (app_prefix ", max_size=") in E1. apply dec_inj in E1.
  rewrite (addr_text_inj g g _ _ It Iu A), E1. f_equal.
  exact (rows_from_inj g (at_addrs t) (at_addrs u) 1 [] [] Lt Lu E3).
Qed.

(** The association table. *)
Definition as_row (g : N -> bool) (e : asap * list address) : string := row (asap_text (fst e)) (list_text g (snd e)).
Lemma as_rows_lines g d rest : one_line_names (map fst d) -> lines (as_rows g d ++ rest) = map (as_row g) d ++ lines rest.
Proof.
  induction d as [|[a l] d IH]; intros N; [reflexivity|]. cbn [as_rows map app].
  rewrite <- IH by exact (Forall_inv_tail N). rewrite <- lines_cons.
  - f_equal. unfold as_row, row. cbn [fst snd]. rewrite !app_assoc_s. reflexivity.
  - apply one_line_row; [apply one_line_asap; exact (Forall_inv N)|apply one_line_list].
Qed.
Lemma as_text_lines g s : one_line_names (map fst (as_addresses s)) ->
  lines (as_text g s) = "AssociationTable: asap -> addresses"%string :: map (as_row g) (as_addresses s) ++ lines (at_text g (as_table s)).
Proof.
  intros N. unfold as_text. rewrite <- as_rows_lines by exact N. rewrite <- lines_cons by fixed. reflexivity.
Qed.
Lemma at_lines_head g t : exists r rs, lines (at_text g t) = String "A" r :: rs.
Proof. rewrite at_text_lines. unfold at_head. cbn [app]. eexists. eexists. reflexivity. Qed.
Lemma as_rows_inj g : forall d e r1 r2 t1 t2, Forall (fun x => Forall sixteen_bits (snd x)) d -> Forall (fun x => Forall sixteen_bits (snd x)) e ->
  map (as_row g) d ++ String "A" r1 :: t1 = map (as_row g) e ++ String "A" r2 :: t2 ->
  map (fun x => (seen_asap (fst x), map (seen_address g) (snd x))) d = map (fun x => (seen_asap (fst x), map (seen_address g) (snd x))) e /\
  String "A" r1 :: t1 = String "A" r2 :: t2.
Proof.
  induction d as [|x d IH]; intros [|y e] r1 r2 t1 t2 Hd He E; cbn [map app] in E; try discriminate E; [auto|].
  apply cons_inj in E. destruct E as [E1 E2]. apply row_inj in E1; [|apply list_text_not; fixed|apply list_text_not; fixed].
  destruct E1 as [E1 E3]. destruct (IH e r1 r2 t1 t2 (Forall_inv_tail Hd) (Forall_inv_tail He) E2) as [I1 I2].
  split; [|exact I2]. cbn [map]. rewrite I1, (asap_text_inj _ _ E1).
  rewrite (list_text_inj g _ _ (Forall_inv Hd) (Forall_inv He) E3). reflexivity.
Qed.
Lemma as_inj g s u : one_line_names (map fst (as_addresses s)) -> one_line_names (map fst (as_addresses u)) ->
  table_sixteen (as_table s) -> table_sixteen (as_table u) ->
  Forall (fun x => Forall sixteen_bits (snd x)) (as_addresses s) -> Forall (fun x => Forall sixteen_bits (snd x)) (as_addresses u) ->
  as_text g s = as_text g u ->
  seen_associations g s = seen_associations g u /\ seen_table g (as_table s) = seen_table g (as_table u).
Proof.
  intros Ns Nu Ts Tu As Au E. apply (f_equal lines) in E. rewrite !as_text_lines in E by assumption. apply cons_inj in E. destruct E as [_ E].
  destruct (at_lines_head g (as_table s)) as (r1 & t1 & H1). destruct (at_lines_head g (as_table u)) as (r2 & t2 & H2).
  rewrite H1, H2 in E. apply as_rows_inj in E; [|exact As|exact Au]. destruct E as [E1 E2].
  split; [exact E1|]. apply at_lines_inj; [exact Ts|exact Tu|congruence].
Qed.

(** The group object table. *)
Definition go_row (e : asap * dpt_class) : string := row (asap_text (fst e)) (class_name (snd e)).
Lemma go_rows_lines d : one_line_names (map fst d) -> lines (go_rows d) = map go_row d ++ [""%string].
Proof.
  induction d as [|[a c] d IH]; intros N; [reflexivity|]. cbn [go_rows map app].
  rewrite <- IH by exact (Forall_inv_tail N). rewrite <- lines_cons.
  - f_equal. unfold go_row, row. cbn [fst snd]. rewrite !app_assoc_s. reflexivity.
  - apply one_line_row; [apply one_line_asap; exact (Forall_inv N)|apply one_line_class].
Qed.
Lemma go_text_lines d : one_line_names (map fst d) ->
  lines (go_text d) = "GroupObjectTable: ASAP -> datapointtype"%string :: map go_row d ++ [""%string].
Proof. intros N. unfold go_text. rewrite <- go_rows_lines by exact N. rewrite <- lines_cons by fixed. reflexivity. Qed.
Lemma class_no_gt c : ~ In ">"%char (L (class_name c)).
Proof. destruct c; fixed. Qed.
Lemma class_name_inj c d : class_name c = class_name d -> c = d.
Proof. destruct c, d; intros E; try reflexivity; discriminate E. Qed.
Lemma go_rows_inj : forall d e, map go_row d ++ [""%string] = map go_row e ++ [""%string] ->
  map (fun x => (seen_asap (fst x), snd x)) d = map (fun x => (seen_asap (fst x), snd x)) e.
Proof.
  induction d as [|x d IH]; intros [|y e] E; cbn [map app] in E; try discriminate E; [reflexivity|].
  apply cons_inj in E. destruct E as [E1 E2]. apply row_inj in E1; [|apply class_no_gt|apply class_no_gt]. destruct E1 as [E1 E3].
  cbn [map]. rewrite (asap_text_inj _ _ E1), (class_name_inj _ _ E3), (IH e E2). reflexivity.
Qed.
