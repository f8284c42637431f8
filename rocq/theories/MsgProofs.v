(** Proofs about Msg.v and Address.v. *)
From Coq Require Import String Ascii ZArith NArith List Bool Lia ZifyBool.
From Verif Require Import Py Base Msg Address SpecMsg.
Import ListNotations.
Open Scope Z_scope.

(** ** Octets *)

Lemma octets_cons o m : octets (o :: m) <-> is_octet o /\ octets m.
Proof. split; [intros H; inversion H; auto|intros []; constructor; auto]. Qed.
Lemma octets_app l r : octets (l ++ r) <-> octets l /\ octets r.
Proof. unfold octets. apply Forall_app. Qed.

Lemma octect_of_nibbles_arith h l :
  octect_of_nibbles h l = 16 * (h mod 16) + l mod 16.
Proof.
  unfold octect_of_nibbles. rewrite (set_arith (set 0 4 4 h)), get_set_other, set_arith by lia.
  rewrite !(get_0 0) by reflexivity. change (2 ^ 4) with 16. change (2 ^ 0) with 1. lia.
Qed.
Lemma Octect_mod v : Octect v = v mod 256.
Proof. reflexivity. Qed.
Lemma Octect_id v : is_octet v -> Octect v = v.
Proof. unfold is_octet. intros. rewrite Octect_mod. apply Z.mod_small. lia. Qed.
Lemma Octect_octet v : is_octet (Octect v).
Proof. unfold is_octet. rewrite Octect_mod. lia. Qed.

(** ** Hexadecimal text *)

(** Facts about one character, by inspection of the 256 characters. *)
Definition all_chars : list ascii := map ascii_of_nat (seq 0 256).
Lemma all_chars_complete c : In c all_chars.
Proof.
  unfold all_chars. rewrite <- (ascii_nat_embedding c). apply in_map.
  apply in_seq. pose proof (nat_ascii_bounded c). lia.
Qed.

Definition is_hexb (c : ascii) : bool :=
  existsb (Ascii.eqb c) digits || existsb (Ascii.eqb c) small_letters.
Lemma is_hexb_spec c : is_hexb c = true <-> is_hex c.
Proof.
  unfold is_hexb, is_hex. rewrite orb_true_iff, !existsb_exists.
  split; intros [(x & H & E)|(x & H & E)] || intros [H|H].
  - left. apply Ascii.eqb_eq in E. congruence.
  - right. apply Ascii.eqb_eq in E. congruence.
  - left. exists c. split; [assumption|apply Ascii.eqb_refl].
  - right. exists c. split; [assumption|apply Ascii.eqb_refl].
Qed.

Definition hexval_ok (c : ascii) : bool :=
  match hexval c with
  | None => negb (is_hexb c)
  | Some v => is_hexb c && (0 <=? v) && (v <? 16) && Ascii.eqb (digit v) (upper_char c)
  end.
Lemma hexval_table : forallb hexval_ok all_chars = true.
Proof. vm_compute. reflexivity. Qed.
Lemma hexval_facts c : hexval_ok c = true.
Proof. exact (proj1 (forallb_forall _ _) hexval_table c (all_chars_complete c)). Qed.

Lemma hexval_hex c : is_hex c -> exists v, hexval c = Some v /\ 0 <= v < 16 /\ digit v = upper_char c.
Proof.
  intros H. apply is_hexb_spec in H. pose proof (hexval_facts c) as F. unfold hexval_ok in F.
  destruct (hexval c) as [v|]; [|rewrite H in F; discriminate].
  rewrite !andb_true_iff in F. destruct F as (((_ & ?) & ?) & E). apply Ascii.eqb_eq in E.
  exists v. repeat split; try lia; assumption.
Qed.
Lemma hexval_not_hex c : ~ is_hex c -> hexval c = None.
Proof.
  intros H. pose proof (hexval_facts c) as F. unfold hexval_ok in F.
  destruct (hexval c) as [v|]; [|reflexivity]. exfalso. apply H, is_hexb_spec.
  rewrite !andb_true_iff in F. tauto.
Qed.

Definition digit_ok (n : Z) : bool :=
  Ascii.eqb (hexdigit n) (digit n) &&
  match hexval (digit n) with Some v => v =? n | None => false end.
Lemma digit_table : forallb digit_ok (map Z.of_nat (seq 0 16)) = true.
Proof. vm_compute. reflexivity. Qed.
Lemma digit_facts n : 0 <= n < 16 -> hexdigit n = digit n /\ hexval (digit n) = Some n.
Proof.
  intros H.
  assert (F : digit_ok n = true).
  { apply (proj1 (forallb_forall _ _) digit_table).
    rewrite <- (Z2Nat.id n) by lia. apply in_map, in_seq. lia. }
  unfold digit_ok in F. apply andb_true_iff in F. destruct F as [E F].
  apply Ascii.eqb_eq in E. split; [exact E|].
  destruct (hexval (digit n)); [|discriminate]. f_equal. lia.
Qed.

Lemma nibbles o : is_octet o -> 0 <= o / 16 < 16 /\ 0 <= o mod 16 < 16 /\ o = 16 * (o / 16) + o mod 16.
Proof. unfold is_octet. lia. Qed.

Lemma msg_str_text m : octets m -> msg_str m = text_of m.
Proof.
  induction m as [|o m IH]; intros H; [reflexivity|].
  apply octets_cons in H. destruct H as [Ho Hm].
  destruct (nibbles o Ho) as (H1 & H2 & _).
  cbn [msg_str]. rewrite IH by assumption.
  rewrite (proj1 (digit_facts _ H1)), (proj1 (digit_facts _ H2)). reflexivity.
Qed.

(** Parsing two characters at a time. *)
Lemma hexvals_ok_cons c r v : hexval c = Some v -> hexvals (c :: r) = do vs <- hexvals r; Ok (v :: vs).
Proof. intros H. cbn. rewrite H. reflexivity. Qed.

Definition parse (cs : list ascii) : res msg :=
  do h <- hexvals (evens cs); do l <- hexvals (odds cs); Ok (zipmap h l).
Lemma parse_pair c1 c2 cs v1 v2 :
  hexval c1 = Some v1 -> hexval c2 = Some v2 ->
  parse (c1 :: c2 :: cs) =
    match parse cs with
    | Ok m => Ok (octect_of_nibbles v1 v2 :: m)
    | Err e => Err e
    end.
Proof.
  intros H1 H2. unfold parse. cbn [evens odds].
  rewrite (hexvals_ok_cons _ _ _ H1), (hexvals_ok_cons _ _ _ H2).
  destruct (hexvals (evens cs)) as [h|e] eqn:Eh; cbn; [|reflexivity].
  destruct (hexvals (odds cs)) as [l|e]; reflexivity.
Qed.
Lemma make_parse s : make_from_str s = parse (list_ascii_of_string s).
Proof. reflexivity. Qed.

Lemma hexvals_only_ValueError cs e : hexvals cs = Err e -> e = ValueError.
Proof.
  induction cs as [|c cs IH]; cbn; [discriminate|].
  destruct (hexval c); [|congruence].
  destruct (hexvals cs); cbn; [discriminate|]. intros [= ->]. auto.
Qed.
Lemma hexvals_bad cs : Exists (fun c => ~ is_hex c) cs -> hexvals cs = Err ValueError.
Proof.
  induction 1 as [c cs H|c cs H IH]; cbn.
  - rewrite (hexval_not_hex _ H). reflexivity.
  - rewrite IH. destruct (hexval c); reflexivity.
Qed.

Lemma two_step_ind {A} (P : list A -> Prop) :
  P [] -> (forall a, P [a]) -> (forall a b l, P l -> P (a :: b :: l)) -> forall l, P l.
Proof.
  intros H0 H1 H2 l. enough (P l /\ forall a, P (a :: l)) by tauto.
  induction l as [|a l [IH1 IH2]]; [auto|]. split; auto.
Qed.

Lemma evens_odds_in {A : Type} (c : ascii) cs : In c cs <-> In c (evens cs) \/ In c (odds cs).
Proof.
  induction cs as [|a|a b l IH] using two_step_ind; cbn; [tauto|tauto|]. rewrite IH. tauto.
Qed.

Lemma make_bad s : Exists (fun c => ~ is_hex c) (list_ascii_of_string s) ->
  make_from_str s = Err ValueError.
Proof.
  rewrite make_parse. intros H. unfold parse.
  apply Exists_exists in H. destruct H as (c & Hin & Hc).
  apply (@evens_odds_in unit) in Hin.
  destruct Hin as [Hin|Hin].
  - rewrite hexvals_bad; [reflexivity|]. apply Exists_exists. eauto.
  - rewrite (hexvals_bad (odds _)); [|apply Exists_exists; eauto].
    destruct (hexvals (evens _)) eqn:E; cbn; [reflexivity|].
    apply hexvals_only_ValueError in E. subst; reflexivity.
Qed.

Lemma make_of_str m : octets m -> make_from_str (msg_str m) = Ok m.
Proof.
  intros H. rewrite (msg_str_text _ H), make_parse. unfold text_of.
  rewrite list_ascii_of_string_of_list_ascii.
  induction m as [|o m IH]; [reflexivity|].
  apply octets_cons in H. destruct H as [Ho Hm]. destruct (nibbles o Ho) as (H1 & H2 & E).
  cbn [flat_map app].
  rewrite (parse_pair _ _ _ _ _ (proj2 (digit_facts _ H1)) (proj2 (digit_facts _ H2))).
  rewrite IH by assumption. rewrite octect_of_nibbles_arith. do 2 f_equal. lia.
Qed.

Lemma parse_hex_even cs : Forall is_hex cs -> Nat.even (length cs) = true ->
  exists m, parse cs = Ok m /\ octets m /\
    flat_map (fun o => [digit (o / 16); digit (o mod 16)]) m = map upper_char cs.
Proof.
  induction cs as [|a|a b l IH] using two_step_ind; intros H E.
  - exists []. repeat split. constructor.
  - discriminate.
  - inversion H as [|? ? Ha H']; subst. inversion H' as [|? ? Hb H'']; subst.
    destruct (IH H'' E) as (m & P & O & U).
    destruct (hexval_hex _ Ha) as (v1 & V1 & R1 & D1), (hexval_hex _ Hb) as (v2 & V2 & R2 & D2).
    exists (octect_of_nibbles v1 v2 :: m).
    rewrite (parse_pair _ _ _ _ _ V1 V2), P. split; [reflexivity|].
    rewrite octect_of_nibbles_arith. split.
    + apply octets_cons. split; [|assumption]. unfold is_octet. lia.
    + cbn [flat_map map app]. rewrite U, <- D1, <- D2.
      replace ((16 * (v1 mod 16) + v2 mod 16) / 16) with v1 by lia.
      replace ((16 * (v1 mod 16) + v2 mod 16) mod 16) with v2 by lia. reflexivity.
Qed.

Lemma string_of_list_upper s : upper s = string_of_list_ascii (map upper_char (list_ascii_of_string s)).
Proof. reflexivity. Qed.

Lemma make_hex_even s : all_hex s -> Nat.even (String.length s) = true ->
  exists m, make_from_str s = Ok m /\ octets m /\ msg_str m = upper s.
Proof.
  intros H E.
  assert (L : length (list_ascii_of_string s) = String.length s).
  { clear. induction s; cbn; congruence. }
  rewrite <- L in E. destruct (parse_hex_even _ H E) as (m & P & O & U).
  exists m. rewrite make_parse. split; [exact P|]. split; [exact O|].
  rewrite msg_str_text by assumption. unfold text_of, upper. rewrite U. reflexivity.
Qed.

Lemma zipmap_nil_r hs : zipmap hs [] = [].
Proof. destruct hs; reflexivity. Qed.

Lemma parse_hex_odd cs c : Forall is_hex cs -> Nat.even (length cs) = true -> is_hex c ->
  parse (cs ++ [c]) = parse cs.
Proof.
  induction cs as [|a|a b l IH] using two_step_ind; intros H E Hc.
  - destruct (hexval_hex _ Hc) as (v & V & _). unfold parse. cbn. rewrite V. reflexivity.
  - discriminate.
  - inversion H as [|? ? Ha H']; subst. inversion H' as [|? ? Hb H'']; subst.
    destruct (hexval_hex _ Ha) as (v1 & V1 & _), (hexval_hex _ Hb) as (v2 & V2 & _).
    change ((a :: b :: l) ++ [c]) with (a :: b :: (l ++ [c])).
    rewrite !(parse_pair _ _ _ _ _ V1 V2), IH by assumption. reflexivity.
Qed.

Lemma list_ascii_app s t :
  list_ascii_of_string (String.append s t) = (list_ascii_of_string s ++ list_ascii_of_string t)%list.
Proof. induction s; cbn; congruence. Qed.

Lemma make_hex_odd s c : all_hex s -> Nat.even (String.length s) = true -> is_hex c ->
  make_from_str (String.append s (String c EmptyString)) = make_from_str s.
Proof.
  intros H E Hc. rewrite !make_parse, list_ascii_app. apply parse_hex_odd; try assumption.
  assert (L : length (list_ascii_of_string s) = String.length s).
  { clear. induction s; cbn; congruence. }
  congruence.
Qed.

(** ** Shorts and longs *)

Lemma set2_arith a b : set (set 0 8 8 a) 0 8 b = 256 * (a mod 256) + b mod 256.
Proof.
  rewrite (set_arith (set 0 8 8 a)), get_set_other, set_arith by lia.
  rewrite !(get_0 0) by reflexivity. change (2 ^ 8) with 256. change (2 ^ 0) with 1. lia.
Qed.
Lemma set4_arith a b c d : set (set (set (set 0 24 8 a) 16 8 b) 8 8 c) 0 8 d
  = 16777216 * (a mod 256) + 65536 * (b mod 256) + 256 * (c mod 256) + d mod 256.
Proof.
  rewrite (set_arith (set (set (set 0 24 8 a) 16 8 b) 8 8 c)), !get_set_other by lia.
  rewrite (set_arith (set (set 0 24 8 a) 16 8 b)), !get_set_other by lia.
  rewrite (set_arith (set 0 24 8 a)), !get_set_other by lia.
  rewrite set_arith by lia.
  rewrite !(get_0 0) by reflexivity.
  change (2 ^ 8) with 256. change (2 ^ 0) with 1. change (2 ^ 16) with 65536.
  change (2 ^ 24) with 16777216. lia.
Qed.

Lemma mod256 b : is_octet b -> b mod 256 = b.
Proof. unfold is_octet. intros. apply Z.mod_small. lia. Qed.

Lemma short_spec b0 b1 r : is_octet b0 -> is_octet b1 ->
  short (b0 :: b1 :: r) = Ok (256 * b0 + b1, r).
Proof. intros. cbn. rewrite set2_arith, !mod256 by assumption. reflexivity. Qed.
Lemma long_spec b0 b1 b2 b3 r : is_octet b0 -> is_octet b1 -> is_octet b2 -> is_octet b3 ->
  long (b0 :: b1 :: b2 :: b3 :: r) = Ok (16777216 * b0 + 65536 * b1 + 256 * b2 + b3, r).
Proof. intros. cbn. rewrite set4_arith, !mod256 by assumption. reflexivity. Qed.

Lemma short_parts s : short_MSB s = (s / 256) mod 256 /\ short_LSB s = s mod 256.
Proof.
  unfold short_MSB, short_LSB. rewrite !get_arith, !Octect_mod by lia.
  change (2 ^ 8) with 256. change (2 ^ 0) with 1. rewrite Z.div_1_r, !Z.mod_mod by lia. auto.
Qed.
Lemma long_parts l : long_B4 l = (l / 16777216) mod 256 /\ long_B3 l = (l / 65536) mod 256 /\
  long_B2 l = (l / 256) mod 256 /\ long_B1 l = l mod 256.
Proof.
  unfold long_B1, long_B2, long_B3, long_B4. rewrite !get_arith, !Octect_mod by lia.
  change (2 ^ 8) with 256. change (2 ^ 0) with 1. change (2 ^ 16) with 65536.
  change (2 ^ 24) with 16777216. rewrite Z.div_1_r, !Z.mod_mod by lia. auto.
Qed.

Lemma short_octects_octets s : octets (short_octects s).
Proof.
  unfold short_octects. destruct (short_parts s) as [-> ->].
  repeat constructor; unfold is_octet; lia.
Qed.
Lemma long_octects_octets s : octets (long_octects s).
Proof.
  unfold long_octects. destruct (long_parts s) as (-> & -> & -> & ->).
  repeat constructor; unfold is_octet; lia.
Qed.

Lemma short_store v r : short (short_octects (Short v) ++ r) = Ok (v mod 65536, r).
Proof.
  unfold short_octects. destruct (short_parts (Short v)) as [-> ->]. cbn [app].
  rewrite short_spec by (unfold is_octet; lia). unfold Short, cuint. change (2 ^ 16) with 65536.
  do 2 f_equal. lia.
Qed.
Lemma long_store v r : long (long_octects (Long v) ++ r) = Ok (v mod 4294967296, r).
Proof.
  unfold long_octects. destruct (long_parts (Long v)) as (-> & -> & -> & ->). cbn [app].
  rewrite long_spec by (unfold is_octet; lia). unfold Long, cuint. change (2 ^ 32) with 4294967296.
  do 2 f_equal. lia.
Qed.

Lemma octect_consume m : octets m ->
  octect m = if (length m <? 1)%nat then Err IndexError else Ok (big_endian (firstn 1 m), skipn 1 m).
Proof. destruct m as [|a m]; intros H; [reflexivity|]. reflexivity. Qed.
Lemma short_consume m : octets m ->
  short m = if (length m <? 2)%nat then Err IndexError else Ok (big_endian (firstn 2 m), skipn 2 m).
Proof.
  destruct m as [|a [|b m]]; intros H; [reflexivity|reflexivity|].
  apply octets_cons in H. destruct H as [Ha H]. apply octets_cons in H. destruct H as [Hb H].
  rewrite short_spec by assumption. cbn [length Nat.ltb Nat.leb firstn skipn big_endian fold_left].
  unfold big_endian. cbn [fold_left]. do 2 f_equal; lia.
Qed.
Lemma long_consume m : octets m ->
  long m = if (length m <? 4)%nat then Err IndexError else Ok (big_endian (firstn 4 m), skipn 4 m).
Proof.
  destruct m as [|a [|b [|c [|d m]]]]; intros H; try reflexivity.
  repeat (apply octets_cons in H; destruct H as [? H]).
  rewrite long_spec by assumption. cbn [length Nat.ltb Nat.leb firstn skipn].
  unfold big_endian. cbn [fold_left]. do 2 f_equal; lia.
Qed.

(** ** Group addresses *)

Lemma two_level_arith m s : two_level m s = 2048 * (m mod 32) + s mod 2048.
Proof.
  unfold two_level. rewrite (set_arith (set 0 11 5 m)), get_set_other, set_arith by lia.
  rewrite !(get_0 0) by reflexivity.
  change (2 ^ 11) with 2048. change (2 ^ 5) with 32. change (2 ^ 0) with 1. lia.
Qed.
Lemma three_level_arith m i s :
  three_level m i s = 2048 * (m mod 32) + 256 * (i mod 8) + s mod 256.
Proof.
  unfold three_level.
  rewrite (set_arith (set (set 0 11 5 m) 8 3 i)), !get_set_other by lia.
  rewrite (set_arith (set 0 11 5 m)), !get_set_other by lia.
  rewrite set_arith by lia. rewrite !(get_0 0) by reflexivity.
  change (2 ^ 11) with 2048. change (2 ^ 5) with 32. change (2 ^ 0) with 1.
  change (2 ^ 3) with 8. change (2 ^ 8) with 256. lia.
Qed.
Lemma fields_arith v :
  two_main v = v / 2048 mod 32 /\ two_sub v = v mod 2048 /\
  three_main v = v / 2048 mod 32 /\ three_middle v = v / 256 mod 8 /\ three_sub v = v mod 256.
Proof.
  unfold two_main, two_sub, three_main, three_middle, three_sub. rewrite !get_arith by lia.
  change (2 ^ 11) with 2048. change (2 ^ 5) with 32. change (2 ^ 0) with 1.
  change (2 ^ 3) with 8. change (2 ^ 8) with 256. rewrite !Z.div_1_r. tauto.
Qed.
