(** Proofs for C105. *)
From Coq Require Import String Ascii ZArith List Bool NArith Lia.
From Verif Require Import Base Py Msg Address Dpt Tables LData State Text StateText SpecMsg SpecText SpecStateText TextProofs.
Import ListNotations.
Open Scope Z_scope.
Notation L := list_ascii_of_string.

Lemma lines_app a b : lines (a ++ newline ++ b) = lines a ++ lines b.
Proof.
  induction a as [|c a IH]; [reflexivity|]. cbn [append lines]. rewrite IH.
  destruct (Ascii.eqb c line_end); [reflexivity|].
  assert (N : lines a <> []) by (destruct a as [|x a]; cbn [lines]; [discriminate|]; destruct (Ascii.eqb x line_end); [discriminate|]; destruct (lines a); discriminate).
  destruct (lines a) as [|l ls]; [congruence|reflexivity].
Qed.
Lemma lines_one l : one_line l -> lines l = [l].
Proof.
  intros N. induction l as [|c l IH]; [reflexivity|]. cbn [lines]. unfold one_line in N. cbn in N.
  destruct (Ascii.eqb_spec c line_end) as [->|_]; [elim N; left; reflexivity|]. rewrite IH; [reflexivity|]. intros I. apply N. right. exact I.
Qed.
Lemma lines_inj : forall a b, lines a = lines b -> a = b.
Proof.
  assert (N : forall a, lines a <> []).
  { intros [|x a]; cbn [lines]; [discriminate|]. destruct (Ascii.eqb x line_end); [discriminate|]. destruct (lines a); discriminate. }
  assert (R : forall a ls, lines a = ls -> forall x r, ls = x :: r -> a = (x ++ fold_right (fun l t => newline ++ l ++ t) EmptyString r)%string).
  { induction a as [|c a IH]; intros ls E x r Er; cbn [lines] in E.
    - subst ls. injection Er as <- <-. reflexivity.
    - destruct (Ascii.eqb_spec c line_end) as [->|C].
      + subst ls. injection Er as <- <-. destruct (lines a) as [|y ys] eqn:Ea; [elim (N a Ea)|].
        rewrite (IH _ eq_refl y ys eq_refl). reflexivity.
      + destruct (lines a) as [|y ys] eqn:Ea; [elim (N a Ea)|]. subst ls. injection Er as <- <-.
        rewrite (IH _ eq_refl y ys eq_refl). reflexivity. }
  intros a b E. destruct (lines b) as [|x r] eqn:Eb; [elim (N b Eb)|].
  rewrite (R a _ E x r eq_refl), (R b _ Eb x r eq_refl). reflexivity.
Qed.

(** Lines that begin with eight blanks. *)
Definition blanks : string := "        ".
Definition deep (l : string) : Prop := exists r, l = (blanks ++ r)%string.
Lemma lines_deep x : exists h t, lines x = h :: t /\ lines (blanks ++ x) = (blanks ++ h)%string :: t.
Proof.
  assert (N : lines x <> []) by (destruct x as [|y x]; cbn [lines]; [discriminate|]; destruct (Ascii.eqb y line_end); [discriminate|]; destruct (lines x); discriminate).
  destruct (lines x) as [|h t] eqn:E; [congruence|]. exists h, t. split; [reflexivity|].
  unfold blanks. cbn [append lines]. rewrite E. reflexivity.
Qed.
Lemma deep_split : forall x y c d u w, Forall (fun l => ~ deep l) x -> Forall (fun l => ~ deep l) y -> deep c -> deep d ->
  x ++ c :: u = y ++ d :: w -> x = y /\ c = d /\ u = w.
Proof.
  induction x as [|a x IH]; intros [|b y] c d u w Hx Hy Dc Dd E; cbn [app] in E.
  - injection E as -> ->. auto.
  - injection E as -> _. elim (Forall_inv Hy Dc).
  - injection E as -> _. elim (Forall_inv Hx Dd).
  - injection E as -> E. destruct (IH y c d u w (Forall_inv_tail Hx) (Forall_inv_tail Hy) Dc Dd E) as (-> & -> & ->). auto.
Qed.

Lemma dec_head v : exists c r, dec v = String c r /\ c <> " "%char /\ c <> "N"%char.
Proof.
  pose proof (dec_nonempty v) as N. pose proof (dec_chars_ok v) as F. destruct (dec v) as [|c r]; [elim N; reflexivity|].
  exists c, r. split; [reflexivity|]. pose proof (Forall_inv F) as I. unfold is_dec_char in I. cbn in I.
  split; intros ->; intuition discriminate.
Qed.
Lemma asap_head a : exists c r, asap_text a = String c r /\ c <> " "%char /\ c <> "N"%char.
Proof.
  rewrite asap_text_eq. destruct (dec_head (asap_value a)) as (c & r & E & C). rewrite E.
  destruct (shown_name (asap_name a)) as [n|]; eexists; eexists; (split; [reflexivity|exact C]).
Qed.
Lemma row_not_deep k e c r : k = String c r -> c <> " "%char -> ~ deep (row k e).
Proof. intros -> C (x & E). unfold row, blanks in E. cbn [append] in E. injection E as E. congruence. Qed.
Lemma rows_from_not_deep g : forall l k, Forall (fun x => ~ deep x) (rows_from g k l).
Proof.
  induction l as [|a l IH]; intros k; cbn [rows_from]; constructor; [|apply IH].
  destruct (dec_head k) as (c & r & E & C & _). exact (row_not_deep _ _ c r E C).
Qed.
Lemma not_deep_fixed s c r : s = String c r -> c <> " "%char -> ~ deep s.
Proof. intros -> C (x & E). unfold blanks in E. cbn [append] in E. injection E as E _. congruence. Qed.
Lemma not_deep_nil : ~ deep "".
Proof. intros (x & E). discriminate E. Qed.
Lemma at_not_deep g t : Forall (fun x => ~ deep x) (lines (at_text g t)).
Proof.
  rewrite at_text_lines. unfold at_head. apply Forall_app. split.
  - constructor; [eapply not_deep_fixed; [reflexivity|discriminate]|]. constructor; [apply not_deep_nil|].
    constructor; [eapply row_not_deep; [reflexivity|discriminate]|]. constructor; [eapply row_not_deep; [reflexivity|discriminate]|].
    constructor; [eapply row_not_deep; [reflexivity|discriminate]|constructor].
  - apply Forall_app. split; [apply rows_from_not_deep|]. constructor; [apply not_deep_nil|constructor].
Qed.
Lemma as_not_deep g s : one_line_names (map fst (as_addresses s)) -> Forall (fun x => ~ deep x) (tl (lines (as_text g s))).
Proof.
  intros N. rewrite as_text_lines by exact N. cbn [tl]. apply Forall_app. split; [|apply at_not_deep].
  apply Forall_forall. intros x I. apply in_map_iff in I. destruct I as (e & <- & _). unfold as_row.
  destruct (asap_head (fst e)) as (c & r & E & C & _). exact (row_not_deep _ _ c r E C).
Qed.
Lemma go_not_deep g : one_line_names (map fst g) -> Forall (fun x => ~ deep x) (tl (lines (go_text g))).
Proof.
  intros N. rewrite go_text_lines by exact N. cbn [tl]. apply Forall_app. split; [|constructor; [apply not_deep_nil|constructor]].
  apply Forall_forall. intros x I. apply in_map_iff in I. destruct I as (e & <- & _). unfold go_row.
  destruct (asap_head (fst e)) as (c & r & E & C & _). exact (row_not_deep _ _ c r E C).
Qed.

(** ** The lines of a state's text *)

Lemma gap_lines a b : lines (a ++ gap ++ b) = lines a ++ ""%string :: lines (blanks ++ b).
Proof.
  unfold gap. rewrite !app_assoc_s. rewrite lines_app. reflexivity.
Qed.
Definition asap_line (named : bool) (s : state) : string :=
  ("ASAP: " ++ or_none asap_text (st_asap s) ++ ", APCI: " ++ or_none dec (st_apci s)
   ++ ", Address Type: " ++ or_none (address_type_text named) (st_address_type s))%string.
Lemma one_line_type named v : one_line (address_type_text named v).
Proof. unfold address_type_text. destruct named; [destruct (v =? AT_individual); fixed|apply one_line_dec]. Qed.
Lemma one_line_hex w v : one_line (hexpad w v).
Proof. intros I. pose proof (hexpad_chars w v) as F. rewrite Forall_forall in F. apply F in I. vm_compute in I. intuition discriminate. Qed.
Lemma one_line_ld named l : one_line (ld_text named l).
Proof.
  unfold ld_text. repeat match goal with
    | |- one_line (hexpad _ _) => apply one_line_hex
    | |- one_line (dec _) => apply one_line_dec
    | |- one_line (address_type_text _ _) => apply one_line_type
    | |- one_line (_ ++ _) => apply one_line_app
    end; fixed.
Qed.
Lemma one_line_none {A} (f : A -> string) o : (forall x, o = Some x -> one_line (f x)) -> one_line (or_none f o).
Proof. intros H. destruct o as [x|]; cbn [or_none]; [apply H; reflexivity|fixed]. Qed.
Lemma state_lines kind named s : presentable s -> exists ha ta hg tg,
  lines (or_none (as_text kind) (st_assoc s)) = ha :: ta /\ lines (or_none go_text (st_gobj s)) = hg :: tg /\
  Forall (fun x => ~ deep x) ta /\ Forall (fun x => ~ deep x) tg /\
  lines (state_text kind named s) =
  (" State for " ++ medium_text (st_medium s))%string :: ""%string ::
  (blanks ++ ha)%string :: (ta ++ [""%string]) ++ (blanks ++ hg)%string :: (tg ++ [""%string]) ++
  (blanks ++ "LData structure (for decode functions): " ++ or_none (ld_text named) (st_ldata s))%string :: ""%string ::
  (blanks ++ asap_line named s)%string :: ""%string ::
  (blanks ++ "Sequence Counter (remote): " ++ dec (st_remote s))%string :: ""%string ::
  (blanks ++ "Sequence Counter (local): " ++ dec (st_local s))%string :: [""%string].
Proof.
  intros (Pa & Pg & Ps & _).
  destruct (lines_deep (or_none (as_text kind) (st_assoc s))) as (ha & ta & Ea & Fa).
  destruct (lines_deep (or_none go_text (st_gobj s))) as (hg & tg & Eg & Fg).
  exists ha, ta, hg, tg. split; [exact Ea|]. split; [exact Eg|]. split; [|split].
  - destruct (st_assoc s) as [t|]; cbn [or_none] in Ea.
    + pose proof (as_not_deep kind t (proj1 (Pa t eq_refl))) as D. rewrite Ea in D. exact D.
    + injection Ea as _ <-. constructor.
  - destruct (st_gobj s) as [g|]; cbn [or_none] in Eg.
    + pose proof (go_not_deep g (Pg g eq_refl)) as D. rewrite Eg in D. exact D.
    + injection Eg as _ <-. constructor.
  - unfold state_text. 
    assert (O1 : one_line (" State for " ++ medium_text (st_medium s))) by (destruct (st_medium s); fixed).
    assert (O2 : one_line (blanks ++ "LData structure (for decode functions): " ++ or_none (ld_text named) (st_ldata s))).
    { repeat apply one_line_app; try fixed. apply one_line_none. intros. apply one_line_ld. }
    assert (O3 : one_line (blanks ++ asap_line named s)).
    { unfold asap_line. repeat apply one_line_app; try fixed; apply one_line_none; intros.
      - apply one_line_asap. exact (Forall_inv (Ps _ H)).
      - apply one_line_dec.
      - apply one_line_type. }
    assert (O4 : one_line (blanks ++ "Sequence Counter (remote): " ++ dec (st_remote s))).
    { repeat apply one_line_app; try fixed. apply one_line_dec. }
    assert (O5 : one_line (blanks ++ "Sequence Counter (local): " ++ dec (st_local s))).
    { repeat apply one_line_app; try fixed. apply one_line_dec. }
    assert (G : forall a b c, (a ++ b ++ gap ++ c)%string = ((a ++ b) ++ gap ++ c)%string) by (intros; rewrite !app_assoc_s; reflexivity).
    rewrite (G " State for "%string), gap_lines, (lines_one _ O1). cbn [app]. apply f_equal2; [reflexivity|]. apply f_equal2; [reflexivity|].
    rewrite G, gap_lines, Fa. cbn [app]. apply f_equal2; [reflexivity|]. rewrite <- app_assoc. cbn [app]. apply f_equal2; [reflexivity|]. apply f_equal2; [reflexivity|].
    rewrite G, gap_lines, Fg. cbn [app]. apply f_equal2; [reflexivity|]. rewrite <- app_assoc. cbn [app]. apply f_equal2; [reflexivity|]. apply f_equal2; [reflexivity|].
    rewrite (G "LData structure (for decode functions): "%string), G, gap_lines, (lines_one _ O2). cbn [app]. apply f_equal2; [reflexivity|]. apply f_equal2; [reflexivity|].
    assert (A3 : forall r, (blanks ++ "ASAP: " ++ or_none asap_text (st_asap s) ++ ", APCI: " ++ or_none dec (st_apci s) ++
      ", Address Type: " ++ or_none (address_type_text named) (st_address_type s) ++ gap ++ r)%string = ((blanks ++ asap_line named s) ++ gap ++ r)%string)
      by (intros; unfold asap_line; rewrite !app_assoc_s; reflexivity).
    rewrite A3, gap_lines, (lines_one _ O3). cbn [app]. apply f_equal2; [reflexivity|]. apply f_equal2; [reflexivity|].
    rewrite (G "Sequence Counter (remote): "%string), G, gap_lines, (lines_one _ O4). cbn [app]. apply f_equal2; [reflexivity|]. apply f_equal2; [reflexivity|].
    assert (A5 : (blanks ++ "Sequence Counter (local): " ++ dec (st_local s) ++ newline)%string =
      ((blanks ++ "Sequence Counter (local): " ++ dec (st_local s)) ++ newline ++ "")%string) by (rewrite !app_assoc_s; reflexivity).
    rewrite A5, lines_app, (lines_one _ O5). reflexivity.
Qed.

(** ** Parts *)

Lemma type_inj named u v : (u = 0 \/ u = 1) -> (v = 0 \/ v = 1) -> address_type_text named u = address_type_text named v -> u = v.
Proof. intros [-> | ->] [-> | ->]; destruct named; intros E; try reflexivity; discriminate E. Qed.
Lemma ld_type l : ld_address_type l = 0 \/ ld_address_type l = 1.
Proof. unfold ld_address_type. pose proof (get_range (ld_cntrl2 l) 7 1 ltac:(lia) ltac:(lia)). change (2 ^ 1) with 2 in *. lia. Qed.

Lemma none_inj {A} (f : A -> string) o p : (forall x, f x <> "None"%string) -> or_none f o = or_none f p ->
  (o = None /\ p = None) \/ exists x y, o = Some x /\ p = Some y /\ f x = f y.
Proof.
  intros N E. destruct o as [x|], p as [y|]; cbn [or_none] in E.
  - right. exists x, y. auto.
  - elim (N x E).
  - symmetry in E. elim (N y E).
  - left. auto.
Qed.
Lemma dec_not_none v : dec v <> "None"%string.
Proof. destruct (dec_head v) as (c & r & E & _ & C). rewrite E. intros F. injection F as F _. congruence. Qed.
Lemma asap_not_none a : asap_text a <> "None"%string.
Proof. destruct (asap_head a) as (c & r & E & _ & C). rewrite E. intros F. injection F as F _. congruence. Qed.
Lemma type_not_none named v : address_type_text named v <> "None"%string.
Proof. unfold address_type_text. destruct named; [destruct (v =? AT_individual); discriminate|apply dec_not_none]. Qed.
Lemma dec_sep v w x y c : ~ is_dec_char c -> (dec v ++ String c x)%string = (dec w ++ String c y)%string -> v = w /\ x = y.
Proof.
  intros N E. apply (f_equal L) in E. rewrite !L_app in E. cbn [list_ascii_of_string] in E.
  apply first_sep in E; [|apply dec_not; exact N|apply dec_not; exact N]. destruct E as [E1 E2].
  split; [apply dec_inj; apply L_inj; exact E1|apply L_inj; exact E2].
Qed.
Lemma hex_drop w : forall u v x y, (hexpad w u ++ x)%string = (hexpad w v ++ y)%string -> x = y.
Proof.
  intros u v x y E. apply (f_equal L) in E. rewrite !L_app in E. apply L_inj.
  apply (f_equal (skipn w)) in E. rewrite !skipn_app, !hexpad_length, Nat.sub_diag in E.
  rewrite (skipn_all2 (L (hexpad w u))) in E by (rewrite hexpad_length; lia).
  rewrite (skipn_all2 (L (hexpad w v))) in E by (rewrite hexpad_length; lia). exact E.
Qed.
Lemma ld_inj named l m : ld_text named l = ld_text named m -> shown_ldata l = shown_ldata m.
Proof.
  unfold ld_text. intros E. apply app_prefix in E.
  apply dec_sep in E; [|fixed]. destruct E as [E1 E]. apply (app_prefix "(0x") in E. apply hex_drop in E.
  apply (app_prefix "), destination: ") in E. apply dec_sep in E; [|fixed]. destruct E as [E2 E].
  apply (app_prefix "(0x") in E. apply hex_drop in E. apply app_prefix in E.
  apply type_inj in E; [|apply ld_type|apply ld_type]. unfold shown_ldata. rewrite E1, E2.
  assert (T : forall x, ld_address_type x = if Z.odd (ld_cntrl2 x / 128) then 1 else 0).
  { intros x. unfold ld_address_type. rewrite get_arith by lia. change (2 ^ 7) with 128. change (2 ^ 1) with 2. apply Zmod_odd. }
  rewrite !T in E. destruct (Z.odd (ld_cntrl2 l / 128)), (Z.odd (ld_cntrl2 m / 128)); try discriminate E; reflexivity.
Qed.
Lemma not_type named v c : ~ In c (L "-0123456789AddressType.individualgroup") -> ~ In c (L (address_type_text named v)).
Proof.
  intros N I. apply N. unfold address_type_text in I. destruct named.
  - destruct (v =? AT_individual); revert I; apply in_sub; vm_compute; reflexivity.
  - apply (in_sub (L "-0123456789")); [vm_compute; reflexivity|].
    pose proof (dec_chars_ok v) as F. rewrite Forall_forall in F. exact (F c I).
Qed.
Lemma asap_line_inj named s u :
  (forall v, st_address_type s = Some v -> v = 0 \/ v = 1) -> (forall v, st_address_type u = Some v -> v = 0 \/ v = 1) ->
  asap_line named s = asap_line named u ->
  option_map seen_asap (st_asap s) = option_map seen_asap (st_asap u) /\ st_apci s = st_apci u /\ st_address_type s = st_address_type u.
Proof.
  intros Ts Tu E. unfold asap_line in E. apply app_prefix in E.
  assert (NC : forall x, ~ In ","%char (L (" Address Type: " ++ or_none (address_type_text named) x))).
  { intros x I. rewrite L_app, in_app_iff in I. destruct I as [I|I]; [revert I; fixed|]. destruct x as [v|]; cbn [or_none] in I; [|revert I; fixed].
    revert I. apply not_type. fixed. }
  assert (NB : forall x, ~ In ","%char (L (" APCI: " ++ or_none dec x))).
  { intros x I. rewrite L_app, in_app_iff in I. destruct I as [I|I]; [revert I; fixed|]. destruct x as [v|]; cbn [or_none] in I; [|revert I; fixed].
    revert I. apply dec_not. fixed. }
  assert (A : forall a b c, L (a ++ ", APCI: " ++ b ++ ", Address Type: " ++ c) = L (a ++ ", APCI: " ++ b) ++ ","%char :: L (" Address Type: " ++ c)).
  { intros a b c. rewrite !L_app. cbn [list_ascii_of_string app]. rewrite <- !app_assoc. reflexivity. }
  assert (B : forall a b, L (a ++ ", APCI: " ++ b) = L a ++ ","%char :: L (" APCI: " ++ b)).
  { intros a b. rewrite !L_app. reflexivity. }
  apply (f_equal L) in E. rewrite !A in E. apply last_sep in E; [|apply NC|apply NC]. destruct E as [E E3].
  rewrite !B in E. apply last_sep in E; [|apply NB|apply NB]. destruct E as [E1 E2].
  apply L_inj in E1. apply L_inj, app_prefix in E2. apply L_inj, app_prefix in E3.
  apply none_inj in E1; [|exact asap_not_none]. apply none_inj in E2; [|exact dec_not_none]. apply none_inj in E3; [|apply type_not_none].
  split; [|split].
  - destruct E1 as [[-> ->]|(x & y & -> & -> & F)]; [reflexivity|]. cbn [option_map]. f_equal. apply asap_text_inj. exact F.
  - destruct E2 as [[-> ->]|(x & y & -> & -> & F)]; [reflexivity|]. f_equal. apply dec_inj. exact F.
  - destruct E3 as [[-> ->]|(x & y & X & Y & F)]; [reflexivity|]. rewrite X, Y. f_equal. exact (type_inj named x y (Ts x X) (Tu y Y) F).
Qed.
Lemma go_inj g h : one_line_names (map fst g) -> one_line_names (map fst h) -> go_text g = go_text h -> shown_entries g = shown_entries h.
Proof.
  intros Ng Nh E. apply (f_equal lines) in E. rewrite !go_text_lines in E by assumption. apply cons_inj in E. destruct E as [_ E].
  exact (go_rows_inj g h E).
Qed.

(** ** Texts of equal things *)

Lemma asap_same a b : seen_asap a = seen_asap b -> asap_text a = asap_text b.
Proof. rewrite !seen_asap_eq, !asap_text_eq. intros E. injection E as -> ->. reflexivity. Qed.
Lemma addr_same g a b : seen_address g a = seen_address g b -> addr_text g a = addr_text g b.
Proof. unfold seen_address, addr_text. intros E. injection E as -> ->. reflexivity. Qed.
Lemma joined_same g : forall l m, map (seen_address g) l = map (seen_address g) m -> joined g l = joined g m.
Proof.
  induction l as [|a l IH]; intros [|b m] E; cbn [map] in E; try discriminate E; [reflexivity|].
  apply cons_inj in E. destruct E as [E1 E2]. apply addr_same in E1. specialize (IH m E2).
  destruct l as [|a' l], m as [|b' m]; try discriminate E2; cbn [joined] in *; rewrite E1; [reflexivity|]. rewrite IH. reflexivity.
Qed.
Lemma at_same g t u : seen_table g t = seen_table g u -> at_text g t = at_text g u.
Proof.
  unfold seen_table. intros E.
  assert (E1 : seen_address g (at_ia t) = seen_address g (at_ia u)) by congruence.
  assert (E2 : at_max t = at_max u) by congruence.
  assert (E3 : map (seen_address g) (at_addrs t) = map (seen_address g) (at_addrs u)) by congruence. clear E.
  unfold at_text. rewrite (addr_same g _ _ E1), E2.
  assert (R : forall l m k, map (seen_address g) l = map (seen_address g) m -> at_rows g k l = at_rows g k m).
  { induction l as [|a l IH]; intros [|b m] k E; cbn [map] in E; try discriminate E; [reflexivity|].
    apply cons_inj in E. destruct E as [F1 F2]. cbn [at_rows]. rewrite (addr_same g _ _ F1), (IH m (k + 1) F2). reflexivity. }
  rewrite (R _ _ 1 E3). reflexivity.
Qed.
Lemma as_same g s u : seen_associations g s = seen_associations g u -> seen_table g (as_table s) = seen_table g (as_table u) ->
  as_text g s = as_text g u.
Proof.
  intros E1 E2. unfold as_text. rewrite (at_same g _ _ E2). unfold seen_associations in E1.
  assert (R : forall d e, map (fun x => (seen_asap (fst x), map (seen_address g) (snd x))) d =
    map (fun x => (seen_asap (fst x), map (seen_address g) (snd x))) e -> as_rows g d = as_rows g e).
  { induction d as [|[a l] d IH]; intros [|[b m] e] E; cbn [map] in E; try discriminate E; [reflexivity|].
    apply cons_inj in E. destruct E as [F1 F2]. cbn [fst snd] in F1.
    assert (G1 : seen_asap a = seen_asap b) by congruence. assert (G2 : map (seen_address g) l = map (seen_address g) m) by congruence.
    cbn [as_rows]. unfold list_text. rewrite (asap_same _ _ G1), (joined_same g _ _ G2), (IH e F2). reflexivity. }
  rewrite (R _ _ E1). reflexivity.
Qed.
Lemma go_same : forall g h, shown_entries g = shown_entries h -> go_text g = go_text h.
Proof.
  assert (R : forall g h, shown_entries g = shown_entries h -> go_rows g = go_rows h).
  { induction g as [|[a c] g IH]; intros [|[b d] h] E; unfold shown_entries in E; cbn [map] in E; try discriminate E; [reflexivity|].
    apply cons_inj in E. destruct E as [F1 F2]. cbn [fst snd] in F1.
    assert (G1 : seen_asap a = seen_asap b) by congruence. assert (G2 : c = d) by congruence.
    cbn [go_rows]. rewrite (asap_same _ _ G1), G2, (IH h F2). reflexivity. }
  intros g h E. unfold go_text. rewrite (R _ _ E). reflexivity.
Qed.
Lemma ld_same named l m : shown_ldata l = shown_ldata m -> ld_text named l = ld_text named m.
Proof.
  unfold shown_ldata. intros E. assert (E1 : ld_source l = ld_source m) by congruence. assert (E2 : ld_destination l = ld_destination m) by congruence.
  assert (E3 : Z.odd (ld_cntrl2 l / 128) = Z.odd (ld_cntrl2 m / 128)) by congruence.
  assert (T : forall x, ld_address_type x = if Z.odd (ld_cntrl2 x / 128) then 1 else 0).
  { intros x. unfold ld_address_type. rewrite get_arith by lia. change (2 ^ 7) with 128. change (2 ^ 1) with 2. apply Zmod_odd. }
  unfold ld_text. rewrite E1, E2, !T, E3. reflexivity.
Qed.
Lemma none_same {A B} (f : A -> string) (v : A -> B) o p : (forall x y, v x = v y -> f x = f y) ->
  option_map v o = option_map v p -> or_none f o = or_none f p.
Proof. intros H E. destruct o as [x|], p as [y|]; try discriminate E; [|reflexivity]. apply H. cbn in E. congruence. Qed.

Lemma medium_inj m n : (" State for " ++ medium_text m)%string = (" State for " ++ medium_text n)%string -> m = n.
Proof. destruct m, n; intros E; try reflexivity; discriminate E. Qed.
Lemma not_deep_app l : Forall (fun x => ~ deep x) l -> Forall (fun x => ~ deep x) (l ++ [""%string]).
Proof. intros F. apply Forall_app. split; [exact F|]. constructor; [apply not_deep_nil|constructor]. Qed.
Lemma snoc_inj {A} (x y : list A) a : x ++ [a] = y ++ [a] -> x = y.
Proof. intros E. apply app_inj_tail in E. exact (proj1 E). Qed.
Lemma blanks_deep r : deep (blanks ++ r).
Proof. exists r. reflexivity. Qed.

Lemma state_text_iff kind named s u : presentable s -> presentable u ->
  (state_text kind named s = state_text kind named u <-> shown_state kind s = shown_state kind u).
Proof.
  intros Ps Pu. split.
  - intros E. destruct (state_lines kind named s Ps) as (ha & ta & hg & tg & Ea & Eg & Da & Dg & Es).
    destruct (state_lines kind named u Pu) as (ha' & ta' & hg' & tg' & Ea' & Eg' & Da' & Dg' & Eu).
    apply (f_equal lines) in E. rewrite Es, Eu in E. clear Es Eu.
    apply cons_inj in E. destruct E as [Em E]. apply cons_inj in E. destruct E as [_ E]. apply cons_inj in E. destruct E as [Eh E].
    apply deep_split in E; [|apply not_deep_app; assumption|apply not_deep_app; assumption|apply blanks_deep|apply blanks_deep].
    destruct E as (Et & Eh2 & E). apply snoc_inj in Et.
    apply deep_split in E; [|apply not_deep_app; assumption|apply not_deep_app; assumption|apply blanks_deep|apply blanks_deep].
    destruct E as (Et2 & El & E). apply snoc_inj in Et2.
    apply cons_inj in E. destruct E as [_ E]. apply cons_inj in E. destruct E as [Eq E]. apply cons_inj in E. destruct E as [_ E].
    apply cons_inj in E. destruct E as [Er E]. apply cons_inj in E. destruct E as [_ E]. apply cons_inj in E. destruct E as [Ec _].
    apply medium_inj in Em. apply app_prefix in Eh. apply app_prefix in Eh2. do 2 apply app_prefix in El. apply app_prefix in Eq.
    do 2 apply app_prefix in Er. do 2 apply app_prefix in Ec. apply dec_inj in Er. apply dec_inj in Ec.
    assert (Fa : or_none (as_text kind) (st_assoc s) = or_none (as_text kind) (st_assoc u)) by (apply lines_inj; congruence).
    assert (Fg : or_none go_text (st_gobj s) = or_none go_text (st_gobj u)) by (apply lines_inj; congruence).
    clear Ea Eg Ea' Eg'. destruct Ps as (Pa & Pg & _ & Pt), Pu as (Pa' & Pg' & _ & Pt').
    apply asap_line_inj in Eq; [|exact Pt|exact Pt']. destruct Eq as (E1 & E2 & E3).
    apply none_inj in Fa; [|discriminate]. apply none_inj in Fg; [|discriminate]. apply none_inj in El; [|discriminate].
    assert (Ga : option_map (fun t => (seen_associations kind t, seen_table kind (as_table t))) (st_assoc s) =
                 option_map (fun t => (seen_associations kind t, seen_table kind (as_table t))) (st_assoc u)).
    { destruct Fa as [[-> ->]|(x & y & X & Y & F)]; [reflexivity|]. rewrite X, Y. cbn [option_map].
      destruct (Pa x X) as (A1 & A2 & A3). destruct (Pa' y Y) as (B1 & B2 & B3).
      destruct (as_inj kind x y A1 B1 A2 B2 A3 B3 F) as [-> ->]. reflexivity. }
    assert (Gg : option_map shown_entries (st_gobj s) = option_map shown_entries (st_gobj u)).
    { destruct Fg as [[-> ->]|(x & y & X & Y & F)]; [reflexivity|]. rewrite X, Y. cbn [option_map]. f_equal. apply go_inj; auto. }
    assert (Gl : option_map shown_ldata (st_ldata s) = option_map shown_ldata (st_ldata u)).
    { destruct El as [[-> ->]|(x & y & -> & -> & F)]; [reflexivity|]. cbn [option_map]. f_equal. exact (ld_inj named x y F). }
    unfold shown_state. rewrite Em, Ga, Gg, Gl, E1, E2, E3, Er, Ec. reflexivity.
  - unfold shown_state. intros E.
    assert (E1 : st_medium s = st_medium u) by congruence.
    assert (E2 : option_map (fun t => (seen_associations kind t, seen_table kind (as_table t))) (st_assoc s) =
                 option_map (fun t => (seen_associations kind t, seen_table kind (as_table t))) (st_assoc u)) by congruence.
    assert (E3 : option_map shown_entries (st_gobj s) = option_map shown_entries (st_gobj u)) by congruence.
    assert (E4 : option_map shown_ldata (st_ldata s) = option_map shown_ldata (st_ldata u)) by congruence.
    assert (E5 : option_map seen_asap (st_asap s) = option_map seen_asap (st_asap u)) by congruence.
    assert (E6 : st_apci s = st_apci u) by congruence. assert (E7 : st_address_type s = st_address_type u) by congruence.
    assert (E8 : st_remote s = st_remote u) by congruence. assert (E9 : st_local s = st_local u) by congruence.
    clear E. unfold state_text. rewrite E1, E6, E7, E8, E9.
    rewrite (none_same (as_text kind) (fun t => (seen_associations kind t, seen_table kind (as_table t))) _ _
               (fun x y F => as_same kind x y (f_equal fst F) (f_equal snd F)) E2).
    rewrite (none_same go_text _ _ _ go_same E3), (none_same (ld_text named) _ _ _ (ld_same named) E4), (none_same asap_text _ _ _ asap_same E5).
    reflexivity.
Qed.
