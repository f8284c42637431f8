(** Proofs about the daemon. *)
From Coq Require Import String Ascii ZArith List Bool Lia ZifyBool Permutation.
From Verif Require Import Py Msg Daemon SpecMsg SpecDaemon Base MsgProofs.
Import ListNotations.
Open Scope Z_scope.

(** ** Lines *)

Lemma hex_not_eol c v : hex_code c v -> is_eol c = false.
Proof. unfold hex_code, is_eol. lia. Qed.
Lemma hex_range c v : hex_code c v -> 0 <= v < 16.
Proof. unfold hex_code. lia. Qed.
Lemma eol_spec c : is_eol c = true <-> line_end c.
Proof. unfold is_eol, line_end. lia. Qed.
Lemma denotes_len t o : denotes t o -> zlen t = 2 * zlen o.
Proof. induction 1; rewrite ?zlen_cons; [reflexivity|lia]. Qed.
Lemma denotes_octets t o : denotes t o -> octets o.
Proof.
  induction 1; constructor; [|assumption].
  pose proof (hex_range _ _ H). pose proof (hex_range _ _ H0). unfold is_octet. lia.
Qed.
Lemma denotes_last t o : denotes t o -> forall t' c, t = t' ++ [c] -> is_eol c = false.
Proof.
  induction 1; intros t' c E.
  - destruct t'; discriminate E.
  - destruct t' as [|a [|b t']].
    + destruct text; discriminate E.
    + destruct text; [|destruct text; discriminate E]. injection E as <- <-. eapply hex_not_eol. eassumption.
    + injection E as <- <- E. eapply IHdenotes. exact E.
Qed.

Lemma upd_length l : forall i v, length (upd l i v) = length l.
Proof. induction l as [|x l IH]; intros i v; [reflexivity|]. cbn [upd]. destruct (i =? 0); cbn [length]; auto. Qed.
Lemma upd_at (a : list Z) x b v : upd (a ++ x :: b) (zlen a) v = a ++ v :: b.
Proof.
  induction a as [|y a IH]; cbn [app upd]; [reflexivity|].
  rewrite zlen_cons. pose proof (zlen_nonneg a).
  destruct (zlen a + 1 =? 0) eqn:E; [lia|]. replace (zlen a + 1 - 1) with (zlen a) by lia. rewrite IH. reflexivity.
Qed.

Lemma zdrop_app_exact {A} (l r : list A) n : n = zlen l -> zdrop n (l ++ r) = r.
Proof.
  intros ->. rewrite zdrop_skipn. unfold zlen. rewrite Nat2Z.id, skipn_app, skipn_all, Nat.sub_diag. reflexivity.
Qed.

Lemma parse_good scan : c_scanner scan -> forall t o, denotes t o -> forall pre tail a b i,
  zlen pre = 2 * i -> zlen a = i -> zlen o <= zlen b -> exists tr,
  parse_loop scan (length o) i (pre ++ t ++ tail) (a ++ b) = (i + zlen o, a ++ over o b, tr).
Proof.
  intros CS t o D. induction D as [|c1 c2 h l text o H1 H2 D IH]; intros pre tail a b i Hp Ha Hb.
  - exists []. cbn [length parse_loop]. rewrite zlen_nil, Z.add_0_r. reflexivity.
  - cbn [length parse_loop]. rewrite zdrop_app_exact by lia. cbn [app].
    rewrite (scan_two _ CS _ _ _ _ _ H1 H2).
    destruct b as [|x b]; [rewrite zlen_cons in Hb; pose proof (zlen_nonneg o); rewrite zlen_nil in Hb; lia|].
    rewrite <- Ha, upd_at.
    destruct (IH (pre ++ [c1; c2]) tail (a ++ [16 * h + l]) b (zlen a + 1)) as [tr E].
    + rewrite zlen_app. change (zlen [c1; c2]) with 2. lia.
    + rewrite zlen_app. reflexivity.
    + rewrite !zlen_cons in Hb. lia.
    + replace (pre ++ c1 :: c2 :: text ++ tail) with ((pre ++ [c1; c2]) ++ text ++ tail)
        by (rewrite <- app_assoc; reflexivity).
      replace (a ++ 16 * h + l :: b) with ((a ++ [16 * h + l]) ++ b) by (rewrite <- app_assoc; reflexivity).
      rewrite E. eexists. f_equal. f_equal.
      * rewrite zlen_cons. lia.
      * rewrite <- app_assoc. reflexivity.
Qed.
Lemma parse_bad scan : c_scanner scan -> forall t o, denotes t o -> forall n pre tail a b i,
  zlen pre = 2 * i -> zlen a = i -> zlen o <= zlen b -> scan tail = None -> exists tr,
  parse_loop scan (length o + S n) i (pre ++ t ++ tail) (a ++ b) = (0, a ++ over o b, tr).
Proof.
  intros CS t o D. induction D as [|c1 c2 h l text o H1 H2 D IH]; intros n pre tail a b i Hp Ha Hb Hs.
  - cbn [length plus parse_loop app]. rewrite zdrop_app_exact by lia. rewrite Hs. eexists. reflexivity.
  - cbn [length plus parse_loop]. rewrite zdrop_app_exact by lia. cbn [app].
    rewrite (scan_two _ CS _ _ _ _ _ H1 H2).
    destruct b as [|x b]; [rewrite zlen_cons in Hb; pose proof (zlen_nonneg o); rewrite zlen_nil in Hb; lia|].
    rewrite <- Ha, upd_at.
    destruct (IH n (pre ++ [c1; c2]) tail (a ++ [16 * h + l]) b (zlen a + 1)) as [tr E].
    + rewrite zlen_app. change (zlen [c1; c2]) with 2. lia.
    + rewrite zlen_app. reflexivity.
    + rewrite !zlen_cons in Hb. lia.
    + exact Hs.
    + replace (pre ++ c1 :: c2 :: text ++ tail) with ((pre ++ [c1; c2]) ++ text ++ tail)
        by (rewrite <- app_assoc; reflexivity).
      replace (a ++ 16 * h + l :: b) with ((a ++ [16 * h + l]) ++ b) by (rewrite <- app_assoc; reflexivity).
      rewrite E. eexists. f_equal. f_equal.
      rewrite <- app_assoc. reflexivity.
Qed.

(** ** The trailing line ends *)

Notation stripped := left_bytes.

Lemma read_steps scan under chunk packet : chunk <> [] -> exists t1,
  (forall a, In a t1 -> a = RdBuf (zlen chunk - 1) \/ (a = RdBuf (zlen chunk - 2) /\ exists t c, chunk = t ++ [c] /\ line_end c)) /\
  read_from_client scan under chunk packet =
    if negb (Z.rem (stripped under chunk) 2 =? 0) then (0, packet, t1)
    else let '(r, p, t) := parse_loop scan (Z.to_nat (Z.quot (stripped under chunk) 2)) 0 (chunk ++ ar_behind under) packet in (r, p, t1 ++ t).
Proof.
  intros N. unfold read_from_client, left_bytes.
  destruct (exists_last N) as (t & c & E). pose proof (zlen_nonneg t).
  assert (L : zlen chunk = zlen t + 1) by (subst chunk; rewrite zlen_app; reflexivity).
  destruct (zlen chunk =? 0) eqn:Z0; [lia|].
  assert (B : znth (zlen chunk - 1) chunk = Some c).
  { rewrite znth_nth by lia. subst chunk. rewrite nth_error_app2 by (rewrite zlen_app; change (zlen [c]) with 1; unfold zlen; lia).
    rewrite zlen_app. change (zlen [c]) with 1. replace (Z.to_nat (zlen t + 1 - 1) - length t)%nat with 0%nat by (unfold zlen; lia). reflexivity. }
  cbv zeta. rewrite !B. destruct (zlen chunk - 1 =? -1) eqn:X; [lia|].
  exists [RdBuf (zlen chunk - 1); RdBuf ((if is_eol c then zlen chunk - 1 else zlen chunk) - 1)].
  split.
  - intros a [<-|[<-|[]]]; [left; reflexivity|]. destruct (is_eol c) eqn:Ec.
    + right. split; [f_equal; lia|]. exists t, c. split; [exact E|]. apply eol_spec. exact Ec.
    + left. reflexivity.
  - match goal with |- context [negb ?b] => destruct (negb b) end; [reflexivity|].
    match goal with |- context [parse_loop ?s ?n ?i ?b ?p] => destruct (parse_loop s n i b p) as [[r p'] t'] end. reflexivity.
Qed.

Lemma last_eol (t : list Z) c under : (if zlen (t ++ [c]) - 1 =? -1 then under
  else match znth (zlen (t ++ [c]) - 1) (t ++ [c]) with Some c => c | None => 0 end) = c.
Proof.
  pose proof (zlen_nonneg t). rewrite zlen_app. change (zlen [c]) with 1.
  destruct (zlen t + 1 - 1 =? -1) eqn:X; [lia|].
  rewrite znth_nth by lia. rewrite nth_error_app2 by (unfold zlen; lia).
  replace (Z.to_nat (zlen t + 1 - 1) - length t)%nat with 0%nat by (unfold zlen; lia). reflexivity.
Qed.
Lemma znth_app_left (l r : list Z) n : 0 <= n < zlen l -> znth n (l ++ r) = znth n l.
Proof. intros H. rewrite !znth_nth by lia. apply nth_error_app1. unfold zlen in H. lia. Qed.

(** Without a line end at the end nothing is removed. *)
Lemma stripped_none under t c : ~ line_end c -> stripped under (t ++ [c]) = zlen (t ++ [c]).
Proof.
  intros H. assert (E : is_eol c = false) by (destruct (is_eol c) eqn:E; [apply eol_spec in E; contradiction|reflexivity]).
  unfold left_bytes. cbv zeta. rewrite last_eol, E. rewrite last_eol, E. reflexivity.
Qed.
(** One line end is removed, and two are. *)
Lemma stripped_one under t x c : ~ line_end x -> line_end c -> stripped under (t ++ [x; c]) = zlen t + 1.
Proof.
  intros H Hc. apply eol_spec in Hc.
  assert (E : is_eol x = false) by (destruct (is_eol x) eqn:E; [apply eol_spec in E; contradiction|reflexivity]).
  unfold left_bytes. cbv zeta. replace (t ++ [x; c]) with ((t ++ [x]) ++ [c]) by (rewrite <- app_assoc; reflexivity).
  rewrite last_eol, Hc. pose proof (zlen_nonneg t).
  rewrite zlen_app. change (zlen [c]) with 1.
  replace (zlen (t ++ [x]) + 1 - 1) with (zlen (t ++ [x])) by lia.
  rewrite znth_app_left by (rewrite zlen_app; change (zlen [x]) with 1; lia).
  rewrite last_eol, E. rewrite zlen_app. reflexivity.
Qed.
Lemma stripped_two under t x c : line_end x -> line_end c -> stripped under (t ++ [x; c]) = zlen t.
Proof.
  intros H Hc. apply eol_spec in Hc. apply eol_spec in H.
  unfold left_bytes. cbv zeta. replace (t ++ [x; c]) with ((t ++ [x]) ++ [c]) by (rewrite <- app_assoc; reflexivity).
  rewrite last_eol, Hc. pose proof (zlen_nonneg t).
  rewrite zlen_app. change (zlen [c]) with 1.
  replace (zlen (t ++ [x]) + 1 - 1) with (zlen (t ++ [x])) by lia.
  rewrite znth_app_left by (rewrite zlen_app; change (zlen [x]) with 1; lia).
  rewrite last_eol, H. rewrite zlen_app. change (zlen [x]) with 1. lia.
Qed.
Lemma stripped_lone under c : line_end c -> stripped under [c] = (if is_eol (ar_before under) then -1 else 0).
Proof.
  intros Hc. apply eol_spec in Hc. unfold left_bytes. cbv zeta. change [c] with ([] ++ [c]). rewrite last_eol, Hc.
  cbn. reflexivity.
Qed.

(** What is left of a body that does not end in a line end, whatever line ends
    (at most two) follow. *)
Definition ends (eol : list Z) : Prop := Forall line_end eol /\ zlen eol <= 2.
Lemma stripped_body under t x eol : ~ line_end x -> ends eol -> stripped under (t ++ [x] ++ eol) = zlen t + 1.
Proof.
  intros N [F L]. destruct eol as [|c [|d [|y eol]]].
  - rewrite app_nil_r, stripped_none by exact N. rewrite zlen_app. reflexivity.
  - inversion F. apply stripped_one; assumption.
  - inversion F as [|? ? Hc F']. inversion F' as [|? ? Hd _]. cbn [app].
    replace (t ++ [x; c; d]) with ((t ++ [x]) ++ [c; d]) by (rewrite <- app_assoc; reflexivity).
    rewrite stripped_two by assumption. rewrite zlen_app. reflexivity.
  - exfalso. rewrite !zlen_cons in L. pose proof (zlen_nonneg eol). lia.
Qed.
Lemma stripped_bare under eol : ends eol -> eol <> [] -> stripped under eol = 0 \/ stripped under eol = -1.
Proof.
  intros [F L] N. destruct eol as [|c [|d [|y eol]]]; [contradiction| | |].
  - inversion F. rewrite stripped_lone by assumption. destruct (is_eol (ar_before under)); [right|left]; reflexivity.
  - inversion F as [|? ? Hc F']. inversion F' as [|? ? Hd _]. left. apply (stripped_two under [] c d); assumption.
  - exfalso. rewrite !zlen_cons in L. pose proof (zlen_nonneg eol). lia.
Qed.

(** ** What a chunk from a client does *)

Definition outcome (r : Z * list Z * list access) : Z * list Z := fst r.
Lemma line_read scan under t o eol packet : c_scanner scan -> denotes t o -> ends eol -> t ++ eol <> [] ->
  zlen o <= zlen packet ->
  exists r, 0 <= r /\ fst (read_from_client scan under (t ++ eol) packet) = (r, over o packet).
Proof.
  intros CS D E N L. destruct (read_steps scan under _ packet N) as (t1 & _ & ->).
  destruct o as [|x o].
  - inversion D. subst t. cbn [app] in *. destruct (stripped_bare under eol E N) as [-> | ->].
    + exists 0. cbn. split; [lia|reflexivity].
    + exists 0. cbn. split; [lia|reflexivity].
  - assert (T : t <> []) by (inversion D; discriminate).
    destruct (exists_last T) as (t' & c & Et).
    assert (Nc : ~ line_end c) by (intros X; apply eol_spec in X; rewrite (denotes_last _ _ D _ _ Et) in X; discriminate).
    assert (S0 : stripped under (t ++ eol) = 2 * zlen (x :: o)).
    { rewrite <- (denotes_len _ _ D). rewrite Et, <- app_assoc, stripped_body by assumption. rewrite zlen_app. reflexivity. }
    rewrite S0. rewrite (Z.mul_comm 2), Z.rem_mul, Z.quot_mul by lia.
    cbn [Z.eqb negb]. unfold zlen at 1. rewrite Nat2Z.id.
    destruct (parse_good scan CS _ _ D [] (eol ++ ar_behind under) [] packet 0 eq_refl eq_refl L) as [tr P].
    cbn [app] in P. rewrite <- app_assoc, P. exists (0 + zlen (x :: o)). split; [pose proof (zlen_nonneg (x :: o)); lia|reflexivity].
Qed.
Lemma odd_read scan under body x eol packet : ~ line_end x -> ends eol -> Z.odd (zlen (body ++ [x])) = true ->
  fst (read_from_client scan under ((body ++ [x]) ++ eol) packet) = (0, packet).
Proof.
  intros N E O. assert (Ne : (body ++ [x]) ++ eol <> []) by (destruct body; discriminate).
  destruct (read_steps scan under _ packet Ne) as (t1 & _ & ->).
  rewrite <- app_assoc, stripped_body by assumption. rewrite zlen_app in O. change (zlen [x]) with 1 in O.
  replace (Z.rem (zlen body + 1) 2 =? 0) with false; [reflexivity|].
  symmetry. apply Z.eqb_neq. intros R. apply Z.rem_divide in R; [|lia]. destruct R as [k R]. rewrite R in O.
  rewrite Z.odd_mul in O. cbn in O. rewrite Bool.andb_false_r in O. discriminate O.
Qed.
Lemma bad_read scan under t o c body x eol packet : c_scanner scan -> denotes t o ->
  no_digit c -> ~ white c -> c <> 43 -> c <> 45 -> ~ line_end x -> ends eol ->
  Z.odd (zlen (t ++ c :: body ++ [x])) = false -> zlen o <= zlen packet ->
  fst (read_from_client scan under ((t ++ c :: body ++ [x]) ++ eol) packet) = (0, over o packet).
Proof.
  intros CS D H1 H2 H3 H4 N E O L.
  assert (Ne : (t ++ c :: body ++ [x]) ++ eol <> []) by (destruct t; discriminate).
  destruct (read_steps scan under _ packet Ne) as (t1 & _ & ->).
  assert (St : stripped under ((t ++ c :: body ++ [x]) ++ eol) = zlen (t ++ c :: body) + 1).
  { replace ((t ++ c :: body ++ [x]) ++ eol) with ((t ++ c :: body) ++ [x] ++ eol)
      by (rewrite <- !app_assoc; cbn [app]; rewrite <- !app_assoc; reflexivity).
    apply stripped_body; assumption. }
  rewrite St.
  assert (Ln : zlen (t ++ c :: body ++ [x]) = zlen (t ++ c :: body) + 1) by (rewrite !zlen_app, !zlen_cons, zlen_app; cbn; lia).
  rewrite Ln in O.
  assert (Ev : exists k, zlen (t ++ c :: body) + 1 = k * 2).
  { exists ((zlen (t ++ c :: body) + 1) / 2). rewrite <- Z.negb_even in O. apply negb_false_iff in O.
    apply Z.even_spec in O. destruct O as [k ->]. lia. }
  destruct Ev as [k Ev]. rewrite Ev, Z.rem_mul, Z.quot_mul by lia. cbn [Z.eqb negb].
  pose proof (denotes_len _ _ D) as Lt. rewrite zlen_app, zlen_cons in Ev. pose proof (zlen_nonneg body). pose proof (zlen_nonneg o).
  assert (K : exists n, Z.to_nat k = (length o + S n)%nat).
  { exists (Z.to_nat (k - zlen o - 1)). unfold zlen in *. lia. }
  destruct K as [n ->].
  destruct (parse_bad scan CS _ _ D n [] (((c :: body ++ [x]) ++ eol) ++ ar_behind under) [] packet 0 eq_refl eq_refl L) as [tr P].
  { cbn [app]. apply (scan_bad _ CS); assumption. }
  cbn [app] in P. repeat (rewrite <- app_assoc in P; cbn [app] in P). repeat (rewrite <- app_assoc; cbn [app]). rewrite P. reflexivity.
Qed.

(** ** Indices *)

Lemma parse_inside scan : forall n i buffer packet, 0 <= i -> i + Z.of_nat n <= 56 ->
  Forall inside (snd (parse_loop scan n i buffer packet)).
Proof.
  induction n as [|n IH]; intros i buffer packet H L; cbn [parse_loop]; [constructor|].
  destruct (scan (zdrop (i * 2) buffer)) as [v|].
  - specialize (IH (i + 1) buffer (upd packet i v)).
    destruct (parse_loop scan n (i + 1) buffer (upd packet i v)) as [[r p] t]. cbn [snd] in *.
    constructor; [cbn; lia|]. constructor; [cbn; lia|]. apply IH; lia.
  - cbn [snd]. repeat constructor; cbn; lia.
Qed.
Lemma stripped_le under chunk : chunk <> [] -> -1 <= stripped under chunk <= zlen chunk /\
  (stripped under chunk = -1 -> zlen chunk = 1).
Proof.
  intros N. destruct chunk as [|x chunk]; [contradiction|]. rewrite zlen_cons. pose proof (zlen_nonneg chunk).
  unfold left_bytes. cbv zeta. rewrite zlen_cons.
  repeat match goal with |- context [if is_eol ?b then _ else _] => destruct (is_eol b) end; lia.
Qed.
Lemma read_inside scan under chunk packet : zlen chunk <= 113 ->
  Forall (fun a => inside a \/ a = RdBuf (-1) /\ exists c, chunk = [c] /\ line_end c)
         (snd (read_from_client scan under chunk packet)).
Proof.
  intros L. destruct (list_eq_dec Z.eq_dec chunk []) as [->|N]; [constructor|].
  destruct (read_steps scan under chunk packet N) as (t1 & T & ->).
  assert (P : 0 < zlen chunk) by (destruct chunk; [contradiction|rewrite zlen_cons; pose proof (zlen_nonneg chunk); lia]).
  assert (F1 : Forall (fun a => inside a \/ a = RdBuf (-1) /\ exists c, chunk = [c] /\ line_end c) t1).
  { apply Forall_forall. intros a I. destruct (T a I) as [->|[-> (t & c & E & Hc)]].
    - left. cbn. lia.
    - destruct t as [|y t].
      + right. split; [subst chunk; reflexivity|]. exists c. split; assumption.
      + left. cbn. subst chunk. rewrite zlen_app, zlen_cons in *. cbn in *. change (zlen [c]) with 1 in *. pose proof (zlen_nonneg t). lia. }
  destruct (negb _); [exact F1|].
  destruct (stripped_le under chunk N) as [S1 _].
  pose proof (parse_inside scan (Z.to_nat (Z.quot (stripped under chunk) 2)) 0 (chunk ++ ar_behind under) packet) as I.
  destruct (parse_loop scan (Z.to_nat (Z.quot (stripped under chunk) 2)) 0 (chunk ++ ar_behind under) packet) as [[r p] t]. cbn [snd] in *.
  apply Forall_app. split; [exact F1|].
  eapply Forall_impl; [|apply I]; [intros a Ha; left; exact Ha|lia|].
  assert (Z.quot (stripped under chunk) 2 <= 56); [|lia].
  destruct (Z.le_gt_cases 0 (stripped under chunk)).
  - rewrite Z.quot_div_nonneg by lia. lia.
  - assert (stripped under chunk = -1) as -> by lia. cbn. lia.
Qed.
Lemma lone_reads scan under c packet : line_end c -> In (RdBuf (-1)) (snd (read_from_client scan under [c] packet)).
Proof.
  intros [->| ->]; unfold read_from_client; cbn -[is_eol parse_loop]; change (1 - 1) with 0; cbn -[is_eol parse_loop];
    change (is_eol 10) with true; change (is_eol 13) with true; cbn -[is_eol parse_loop];
    change (0 - 1) with (-1); cbn -[is_eol parse_loop]; destruct (is_eol (ar_before under)); cbn; right; left; reflexivity.
Qed.
Lemma sprintf_inside : forall n i, 0 <= i -> i + Z.of_nat n <= 56 -> Forall inside (sprintf_trace n i).
Proof.
  induction n as [|n IH]; intros i H L; cbn [sprintf_trace]; [constructor|].
  repeat (constructor; [cbn; lia|]). apply IH; lia.
Qed.
Lemma write_inside len : 0 <= len <= 56 -> Forall inside (write_to_client_trace len).
Proof.
  intros H. unfold write_to_client_trace. apply Forall_app. split; [apply sprintf_inside; lia|].
  constructor; [cbn; lia|constructor].
Qed.
Lemma store_inside : forall n i, 0 <= i -> i + Z.of_nat n <= 56 -> Forall inside (store_trace n i).
Proof.
  induction n as [|n IH]; intros i H L; cbn [store_trace]; [constructor|].
  constructor; [cbn; lia|]. apply IH; lia.
Qed.

(** ** The buffer *)

Lemma parse_length scan : forall n i buffer packet, zlen (snd (fst (parse_loop scan n i buffer packet))) = zlen packet.
Proof.
  induction n as [|n IH]; intros i buffer packet; cbn [parse_loop]; [reflexivity|].
  destruct (scan (zdrop (i * 2) buffer)) as [v|]; [|reflexivity].
  specialize (IH (i + 1) buffer (upd packet i v)).
  destruct (parse_loop scan n (i + 1) buffer (upd packet i v)) as [[r p] t]. cbn [fst snd] in *.
  rewrite IH. unfold zlen. rewrite upd_length. reflexivity.
Qed.
Lemma upd_octets v : is_octet v -> forall l i, octets l -> octets (upd l i v).
Proof.
  intros V. induction l as [|x l IH]; intros i H; [constructor|]. inversion H. cbn [upd].
  destruct (i =? 0); constructor; try assumption. apply IH. assumption.
Qed.
Lemma parse_octets scan : c_scanner scan -> forall n i buffer packet, octets packet ->
  octets (snd (fst (parse_loop scan n i buffer packet))).
Proof.
  intros CS. induction n as [|n IH]; intros i buffer packet H; cbn [parse_loop]; [exact H|].
  destruct (scan (zdrop (i * 2) buffer)) as [v|] eqn:E; [|exact H].
  specialize (IH (i + 1) buffer (upd packet i v) (upd_octets v (scan_octet _ CS _ _ E) _ _ H)).
  destruct (parse_loop scan n (i + 1) buffer (upd packet i v)) as [[r p] t]. exact IH.
Qed.
Lemma read_buffer scan under chunk packet : c_scanner scan -> octets packet ->
  zlen (snd (fst (read_from_client scan under chunk packet))) = zlen packet /\
  octets (snd (fst (read_from_client scan under chunk packet))).
Proof.
  intros CS O. destruct (list_eq_dec Z.eq_dec chunk []) as [->|N]; [split; [reflexivity|exact O]|].
  destruct (read_steps scan under chunk packet N) as (t1 & _ & ->). destruct (negb _); [split; [reflexivity|exact O]|].
  pose proof (parse_length scan (Z.to_nat (Z.quot (stripped under chunk) 2)) 0 (chunk ++ ar_behind under) packet) as I.
  pose proof (parse_octets scan CS (Z.to_nat (Z.quot (stripped under chunk) 2)) 0 (chunk ++ ar_behind under) packet O) as J.
  destruct (parse_loop scan (Z.to_nat (Z.quot (stripped under chunk) 2)) 0 (chunk ++ ar_behind under) packet) as [[r p] t]. split; assumption.
Qed.
Lemma parse_result scan : forall n i buffer packet, 0 <= i -> 0 <= fst (fst (parse_loop scan n i buffer packet)).
Proof.
  induction n as [|n IH]; intros i buffer packet H; cbn [parse_loop]; [exact H|].
  destruct (scan (zdrop (i * 2) buffer)) as [v|]; [|cbn; lia].
  specialize (IH (i + 1) buffer (upd packet i v)).
  destruct (parse_loop scan n (i + 1) buffer (upd packet i v)) as [[r p] t]. cbn [fst] in *. apply IH. lia.
Qed.
Lemma read_result scan under chunk packet : chunk <> [] -> 0 <= fst (fst (read_from_client scan under chunk packet)).
Proof.
  intros N. destruct (read_steps scan under chunk packet N) as (t1 & _ & ->). destruct (negb _); [cbn; lia|].
  pose proof (parse_result scan (Z.to_nat (Z.quot (stripped under chunk) 2)) 0 (chunk ++ ar_behind under) packet (Z.le_refl 0)) as I.
  destruct (parse_loop scan (Z.to_nat (Z.quot (stripped under chunk) 2)) 0 (chunk ++ ar_behind under) packet) as [[r p] t]. exact I.
Qed.

(** ** Slots *)

Lemma take_first fd pre post : ~ In (-1) pre -> take_slot fd (pre ++ -1 :: post) = pre ++ fd :: post.
Proof.
  induction pre as [|x pre IH]; intros N; cbn [app take_slot]; [reflexivity|].
  destruct (x =? -1) eqn:E; [exfalso; apply N; left; lia|]. rewrite IH; [reflexivity|]. intros I. apply N. right. exact I.
Qed.
Lemma take_none fd l : ~ In (-1) l -> take_slot fd l = l.
Proof.
  induction l as [|x l IH]; intros N; cbn [take_slot]; [reflexivity|].
  destruct (x =? -1) eqn:E; [exfalso; apply N; left; lia|]. rewrite IH; [reflexivity|]. intros I. apply N. right. exact I.
Qed.
Lemma free_first fd pre post : ~ In fd pre -> free_slot fd (pre ++ fd :: post) = pre ++ -1 :: post.
Proof.
  induction pre as [|x pre IH]; intros N; cbn [app free_slot]; [rewrite Z.eqb_refl; reflexivity|].
  destruct (x =? fd) eqn:E; [exfalso; apply N; left; lia|]. rewrite IH; [reflexivity|]. intros I. apply N. right. exact I.
Qed.
Lemma free_none fd l : ~ In fd l -> free_slot fd l = l.
Proof.
  induction l as [|x l IH]; intros N; cbn [free_slot]; [reflexivity|].
  destruct (x =? fd) eqn:E; [exfalso; apply N; left; lia|]. rewrite IH; [reflexivity|]. intros I. apply N. right. exact I.
Qed.
Lemma first_in (x : Z) l : In x l -> exists pre post, l = pre ++ x :: post /\ ~ In x pre.
Proof.
  induction l as [|y l IH]; intros I; [contradiction|]. destruct (Z.eq_dec y x) as [->|N].
  - exists [], l. split; [reflexivity|intros []].
  - destruct I as [E|I]; [contradiction|]. destruct (IH I) as (pre & post & -> & H).
    exists (y :: pre), post. split; [reflexivity|]. intros [E|J]; contradiction.
Qed.

Definition live (l : list Z) : list Z := filter (fun fd => fd >? 0) l.
Definition slot (x : Z) : Prop := x = -1 \/ 0 < x.
Lemma live_app l r : live (l ++ r) = live l ++ live r.
Proof. apply filter_app. Qed.
Lemma live_full l : Forall slot l -> ~ In (-1) l -> live l = l.
Proof.
  induction l as [|x l IH]; intros F N; [reflexivity|]. inversion F as [|? ? S F']. unfold live in *. cbn [filter].
  destruct (x >? 0) eqn:E; [rewrite IH; [reflexivity|exact F'|intros I; apply N; right; exact I]|].
  exfalso. destruct S; [apply N; left; assumption|lia].
Qed.
Lemma live_le l : zlen (live l) <= zlen l.
Proof. unfold zlen, live. induction l as [|x l IH]; [reflexivity|]. cbn [filter]. destruct (x >? 0); cbn [length]; lia. Qed.
Lemma live_free l : In (-1) l -> zlen (live l) < zlen l.
Proof.
  intros I. apply in_split in I. destruct I as (a & b & ->). rewrite live_app, !zlen_app, zlen_cons.
  change (live (-1 :: b)) with (live b). pose proof (live_le a). pose proof (live_le b). lia.
Qed.
Lemma live_in l x : In x (live l) <-> In x l /\ 0 < x.
Proof. unfold live. rewrite filter_In. split; intros [A B]; (split; [exact A|lia]). Qed.
Lemma without_in fd l x : In x (without fd l) <-> In x l /\ x <> fd.
Proof. unfold without. rewrite filter_In. split; intros [A B]; (split; [exact A|lia]). Qed.
Lemma without_app fd l r : without fd (l ++ r) = without fd l ++ without fd r.
Proof. apply filter_app. Qed.
Lemma without_none fd l : ~ In fd l -> without fd l = l.
Proof.
  induction l as [|x l IH]; intros N; [reflexivity|]. unfold without in *. cbn [filter].
  destruct (x =? fd) eqn:E; [exfalso; apply N; left; lia|]. cbn [negb]. rewrite IH; [reflexivity|]. intros I. apply N. right. exact I.
Qed.
Lemma without_perm fd l r : Permutation l r -> Permutation (without fd l) (without fd r).
Proof.
  unfold without. induction 1; cbn [filter]; [constructor| | |eapply perm_trans; eassumption].
  - destruct (negb (x =? fd)); [constructor|]; assumption.
  - destruct (negb (x =? fd)), (negb (y =? fd)); try reflexivity. apply perm_swap.
Qed.

Record inv (d : daemon) (conn reg : list Z) : Prop := {
  i_len : zlen (dm_packet d) = 56;
  i_oct : octets (dm_packet d);
  i_slots : zlen (dm_slots d) = 64;
  i_kind : Forall slot (dm_slots d);
  i_reg : Permutation (live (dm_slots d)) reg;
  i_nodup : NoDup reg;
  i_incl : incl reg conn;
  i_conn : dm_active d = conn;
  i_pos : Forall (fun x => 0 < x) conn
}.

Lemma accept_slots d conn reg fd : inv d conn reg -> 0 < fd -> ~ In fd conn ->
  (exists pre post, dm_slots d = pre ++ -1 :: post /\ ~ In (-1) pre /\ zlen reg < 64 /\
     take_slot fd (dm_slots d) = pre ++ fd :: post) \/
  (~ In (-1) (dm_slots d) /\ zlen reg = 64 /\ take_slot fd (dm_slots d) = dm_slots d).
Proof.
  intros I P N. pose proof (Permutation_length (i_reg _ _ _ I)) as L. pose proof (i_slots _ _ _ I) as S.
  destruct (in_dec Z.eq_dec (-1) (dm_slots d)) as [F|F].
  - left. pose proof (live_free _ F) as X. destruct (first_in _ _ F) as (pre & post & E & Np).
    exists pre, post. split; [exact E|]. split; [exact Np|]. split; [unfold zlen in *; lia|].
    rewrite E. apply take_first. exact Np.
  - right. split; [exact F|]. split; [|apply take_none; exact F].
    rewrite (live_full _ (i_kind _ _ _ I) F) in L. unfold zlen in *. lia.
Qed.
Lemma inv_accept d conn reg fd scan : inv d conn reg -> 0 < fd -> ~ In fd conn ->
  inv (fst (daemon_step scan d (DAccept fd))) (connect1 conn (DAccept fd)) (register1 reg (DAccept fd)).
Proof.
  intros I P N. cbn [daemon_step fst connect1 register1]. pose proof I as [L O S K R D C A Po].
  destruct (accept_slots d conn reg fd I P N) as [(pre & post & E & Np & Z1 & T) | (Np & Z1 & T)].
  - destruct (zlen reg <? 64) eqn:X; [|lia]. rewrite E in *.
    constructor; cbn [dm_packet dm_slots dm_active]; try assumption; rewrite ?T.
    + rewrite zlen_app, zlen_cons in *. exact S.
    + apply Forall_app in K. destruct K as [K1 K2]. inversion K2. apply Forall_app. split; [exact K1|]. constructor; [right; exact P|assumption].
    + rewrite live_app in *. change (live (-1 :: post)) with (live post) in R.
      assert (Ef : live (fd :: post) = fd :: live post) by (unfold live; cbn [filter]; destruct (fd >? 0) eqn:Y; [reflexivity|lia]).
      rewrite Ef. eapply perm_trans; [symmetry; apply Permutation_middle|]. rewrite R. apply Permutation_cons_append.
    + apply (Permutation_NoDup (Permutation_cons_append reg fd)). constructor; [|exact D]. intros J. apply N, C, J.
    + intros x J. apply in_app_or in J. destruct J as [J|[<-|[]]]; [right; apply C; exact J|left; reflexivity].
    + rewrite A. reflexivity.
    + constructor; assumption.
  - destruct (zlen reg <? 64) eqn:X; [lia|].
    constructor; cbn [dm_packet dm_slots dm_active]; try assumption; rewrite ?T; try assumption.
    + intros x J. right. apply C. exact J.
    + rewrite A. reflexivity.
    + constructor; assumption.
Qed.
Lemma slot_once d conn reg fd pre post : inv d conn reg -> 0 < fd -> dm_slots d = pre ++ fd :: post ->
  ~ In fd pre /\ ~ In fd post.
Proof.
  intros I P E. pose proof (Permutation_NoDup (Permutation_sym (i_reg _ _ _ I)) (i_nodup _ _ _ I)) as N.
  rewrite E, live_app in N.
  assert (Ef : live (fd :: post) = fd :: live post) by (unfold live; cbn [filter]; destruct (fd >? 0) eqn:Y; [reflexivity|lia]).
  rewrite Ef in N. apply NoDup_remove_2 in N. split; intros J; apply N, in_or_app; [left|right]; apply live_in; split; assumption.
Qed.
Lemma inv_leave d conn reg fd u scan : inv d conn reg -> In fd conn ->
  inv (fst (daemon_step scan d (DClient fd [] u))) (connect1 conn (DClient fd [] u)) (register1 reg (DClient fd [] u)).
Proof.
  intros I J. pose proof I as [L O S K R D C A Po].
  change (fst (daemon_step scan d (DClient fd [] u))) with
    (mkdaemon (dm_packet d) (free_slot fd (dm_slots d)) (without fd (dm_active d))).
  cbn [connect1 register1 leaves].
  assert (P : 0 < fd) by (rewrite Forall_forall in Po; apply Po; exact J).
  assert (H : zlen (free_slot fd (dm_slots d)) = 64 /\ Forall slot (free_slot fd (dm_slots d)) /\
              live (free_slot fd (dm_slots d)) = without fd (live (dm_slots d))).
  { destruct (in_dec Z.eq_dec fd (dm_slots d)) as [F|F].
    - destruct (first_in _ _ F) as (pre & post & E & Np). destruct (slot_once d conn reg fd pre post I P E) as [_ Nq].
      rewrite E in *. rewrite free_first by exact Np. rewrite zlen_app, zlen_cons in *. split; [exact S|]. split.
      + apply Forall_app in K. destruct K as [K1 K2]. inversion K2. apply Forall_app. split; [exact K1|]. constructor; [left; reflexivity|assumption].
      + assert (Ef : live (fd :: post) = fd :: live post) by (unfold live; cbn [filter]; destruct (fd >? 0) eqn:Y; [reflexivity|lia]).
        rewrite !live_app, Ef, without_app. change (live (-1 :: post)) with (live post).
        rewrite (without_none fd (live pre)) by (rewrite live_in; tauto).
        unfold without. cbn [filter]. rewrite Z.eqb_refl. cbn [negb]. fold (without fd (live post)).
        rewrite without_none by (rewrite live_in; tauto). reflexivity.
    - rewrite free_none by exact F. split; [exact S|]. split; [exact K|]. symmetry. apply without_none. rewrite live_in. tauto. }
  destruct H as (H1 & H2 & H3).
  constructor; cbn [dm_packet dm_slots dm_active]; try assumption.
  - rewrite H3. apply without_perm. exact R.
  - apply NoDup_filter. exact D.
  - intros x X. apply without_in in X. apply without_in. split; [apply C; tauto|tauto].
  - rewrite A. reflexivity.
  - apply Forall_forall. intros x X. apply without_in in X. rewrite Forall_forall in Po. apply Po. tauto.
Qed.
Lemma over_length o packet : zlen o <= zlen packet -> zlen (over o packet) = zlen packet.
Proof. intros H. unfold over, zlen in *. rewrite app_length, skipn_length. lia. Qed.
Lemma octets_skipn n : forall l, octets l -> octets (skipn n l).
Proof. induction n as [|n IH]; intros l H; [exact H|]. destruct l; [constructor|]. inversion H. apply IH. assumption. Qed.
Lemma over_octets o packet : octets o -> octets packet -> octets (over o packet).
Proof. intros H1 H2. apply Forall_app. split; [exact H1|apply octets_skipn; exact H2]. Qed.
Lemma overlay_over data packet : overlay data packet = over data packet.
Proof. unfold overlay, over. rewrite zdrop_skipn. unfold zlen. rewrite Nat2Z.id. reflexivity. Qed.

(** What input of a client does. *)
Lemma client_step scan d fd chunk u : chunk <> [] ->
  daemon_step scan d (DClient fd chunk u) =
    (mkdaemon (snd (fst (read_from_client scan u chunk (dm_packet d)))) (dm_slots d) (dm_active d),
     [ToBus (ztake 56 (snd (fst (read_from_client scan u chunk (dm_packet d)))))]).
Proof.
  intros N. cbn [daemon_step]. pose proof (read_result scan u chunk (dm_packet d) N) as R.
  destruct (read_from_client scan u chunk (dm_packet d)) as [[r p] t]. cbn [fst snd] in *.
  destruct (r >=? 0) eqn:E; [reflexivity|lia].
Qed.

Lemma inv_step scan d conn reg e : c_scanner scan -> inv d conn reg -> possible1 conn e ->
  inv (fst (daemon_step scan d e)) (connect1 conn e) (register1 reg e).
Proof.
  intros CS I P. destruct e as [fd|data|fd chunk u]; cbn [possible1] in P.
  - apply inv_accept; tauto.
  - pose proof I as [L O S K R D C A Po]. destruct P as [Od Ld]. cbn [daemon_step fst connect1 register1 leaves].
    constructor; cbn [dm_packet dm_slots dm_active]; try assumption; rewrite overlay_over.
    + rewrite over_length by lia. exact L.
    + apply over_octets; assumption.
  - destruct P as (J & Oc & Lc & Ou). destruct chunk as [|x chunk].
    + apply inv_leave; assumption.
    + rewrite client_step by discriminate. cbn [fst connect1 register1 leaves].
      pose proof I as [L O S K R D C A Po]. destruct (read_buffer scan u (x :: chunk) (dm_packet d) CS O) as [B1 B2].
      constructor; cbn [dm_packet dm_slots dm_active]; try assumption. rewrite B1. exact L.
Qed.

Lemma run_snoc scan : forall es d e, fst (daemon_run scan d (es ++ [e])) = fst (daemon_step scan (fst (daemon_run scan d es)) e).
Proof.
  induction es as [|a es IH]; intros d e; cbn [app daemon_run].
  - cbn [fst]. destruct (daemon_step scan d e) as [d1 o]. reflexivity.
  - destruct (daemon_step scan d a) as [d1 o]. specialize (IH d1 e).
    destruct (daemon_run scan d1 (es ++ [e])) as [d2 os]. destruct (daemon_run scan d1 es) as [d3 os']. exact IH.
Qed.
Lemma connected_snoc es e : connected (es ++ [e]) = connect1 (connected es) e.
Proof. unfold connected. rewrite fold_left_app. reflexivity. Qed.
Lemma registered_snoc es e : registered (es ++ [e]) = register1 (registered es) e.
Proof. unfold registered. rewrite fold_left_app. reflexivity. Qed.
Lemma possible_snoc es : forall conn e, possible conn (es ++ [e]) <-> possible conn es /\ possible1 (fold_left connect1 es conn) e.
Proof.
  induction es as [|a es IH]; intros conn e; cbn [app possible fold_left]; [tauto|]. rewrite IH. tauto.
Qed.
Lemma inv_history scan packet : c_scanner scan -> octets packet -> zlen packet = 56 -> forall es, possible [] es ->
  inv (dafter scan packet es) (connected es) (registered es).
Proof.
  intros CS O L. induction es as [|e es IH] using rev_ind; intros P.
  - constructor; cbn; try assumption; try reflexivity; try constructor.
    + left. reflexivity.
    + repeat constructor.
    + intros x [].
  - apply possible_snoc in P. destruct P as [P1 P2]. unfold dafter. rewrite run_snoc, connected_snoc, registered_snoc.
    apply inv_step; [exact CS|apply IH; exact P1|exact P2].
Qed.

(** ** Text *)

Lemma lower_table : forallb (fun n => lower_digit n =? hexchar n) (map Z.of_nat (seq 0 16)) = true.
Proof. vm_compute. reflexivity. Qed.
Lemma lower_hexchar n : 0 <= n < 16 -> hexchar n = lower_digit n.
Proof.
  intros H. pose proof (proj1 (forallb_forall _ _) lower_table n) as T.
  symmetry. apply Z.eqb_eq, T. apply in_map_iff. exists (Z.to_nat n). split; [lia|]. apply in_seq. lia.
Qed.
Lemma client_text_lower o : octets o -> client_text o = lower_line o.
Proof.
  intros H. unfold client_text, lower_line. f_equal. induction H as [|x o X H IH]; [reflexivity|].
  cbn [flat_map]. rewrite IH. unfold hex2. destruct (nibbles _ X) as (A & B & _). rewrite !lower_hexchar by assumption. reflexivity.
Qed.
Lemma bus_step scan d data : octets data ->
  snd (daemon_step scan d (DBus data)) = map (fun fd => ToClient fd (lower_line data)) (live (dm_slots d)).
Proof.
  intros O. cbn [daemon_step snd]. rewrite overlay_over. unfold over.
  rewrite ztake_app_exact by reflexivity. rewrite client_text_lower by exact O. reflexivity.
Qed.

(** ** What the library functions look at *)

Lemma c_space_spec c : c_space c = true <-> white c.
Proof. unfold c_space, white. lia. Qed.
Lemma reads_in n : forall i k, In (RdBuf k) (reads_from n i) <-> i <= k < i + Z.of_nat n.
Proof.
  induction n as [|n IH]; intros i k; cbn [reads_from In]; [lia|]. rewrite IH. split.
  - intros [[= <-]|H]; lia.
  - intros H. destruct (Z.eq_dec i k) as [->|N]; [left; reflexivity|right; lia].
Qed.
Lemma reads_all n : forall i, Forall (fun a => exists k, a = RdBuf k /\ i <= k < i + Z.of_nat n) (reads_from n i).
Proof.
  induction n as [|n IH]; intros i; cbn [reads_from]; [constructor|]. constructor; [exists i; split; [reflexivity|lia]|].
  eapply Forall_impl; [|apply IH]. intros a (k & -> & H). exists k. split; [reflexivity|lia].
Qed.
Lemma scan_reads_head c r : ~ white c -> scan_reads (c :: r) <= 2.
Proof.
  intros N. cbn [scan_reads]. destruct (c_space c) eqn:E; [apply c_space_spec in E; contradiction|]. destruct (c_starts c); lia.
Qed.
Lemma scan_reads_white w r : Forall white w -> scan_reads (w ++ r) = zlen w + scan_reads r.
Proof.
  induction 1 as [|c w H _ IH]; [reflexivity|]. cbn [app scan_reads]. apply c_space_spec in H. rewrite H, zlen_cons, IH. lia.
Qed.
Lemma scan_reads_pos c r : 1 <= scan_reads (c :: r).
Proof.
  revert c. induction r as [|d r IH]; intros c; cbn [scan_reads].
  - destruct (c_space c); [lia|]. destruct (c_starts c); lia.
  - destruct (c_space c); [specialize (IH d); cbn [scan_reads] in IH; lia|]. destruct (c_starts c); lia.
Qed.
Lemma scan_trace_inside scan mem : forall n i, 0 <= i ->
  (forall j, i <= j < i + Z.of_nat n -> exists c r, zdrop (j * 2) mem = c :: r /\ ~ white c) ->
  Forall (fun a => exists k, a = RdBuf k /\ i * 2 <= k < (i + Z.of_nat n) * 2) (fst (scan_trace scan n i mem)).
Proof.
  induction n as [|n IH]; intros i Hi H; cbn [scan_trace]; [constructor|].
  destruct (H i ltac:(lia)) as (c & r & E & W). pose proof (scan_reads_head c r W) as S. rewrite <- E in S.
  assert (F : Forall (fun a => exists k, a = RdBuf k /\ i * 2 <= k < (i + Z.of_nat (Datatypes.S n)) * 2)
                     (reads_from (Z.to_nat (scan_reads (zdrop (i * 2) mem))) (i * 2))).
  { eapply Forall_impl; [|apply reads_all]. intros a (k & -> & K). exists k. split; [reflexivity|lia]. }
  destruct (scan (zdrop (i * 2) mem)); [|exact F].
  specialize (IH (i + 1) ltac:(lia)). destruct (scan_trace scan n (i + 1) mem) as [t b]. cbn [fst] in *.
  apply Forall_app. split; [exact F|]. eapply Forall_impl; [|apply IH].
  - intros a (k & -> & K). exists k. split; [reflexivity|lia].
  - intros j Hj. apply H. lia.
Qed.
Lemma string_inside : forall m text i, In 0 (firstn m text) ->
  Forall (fun a => exists k, a = RdBuf k /\ i <= k < i + Z.of_nat m) (string_trace text i).
Proof.
  induction m as [|m IH]; intros text i H; [destruct H|]. destruct text as [|c text]; [destruct H|]. cbn [firstn string_trace] in *.
  constructor; [exists i; split; [reflexivity|lia]|]. destruct (c =? 0) eqn:E; [constructor|].
  destruct H as [H|H]; [lia|]. eapply Forall_impl; [|apply IH; exact H]. intros a (k & -> & K). exists k. split; [reflexivity|lia].
Qed.
Lemma string_outside : forall m text i, ~ In 0 (firstn m text) -> (m < length text)%nat ->
  In (RdBuf (i + Z.of_nat m)) (string_trace text i).
Proof.
  induction m as [|m IH]; intros text i H L; destruct text as [|c text]; cbn [length] in L; try lia; cbn [string_trace].
  - left. f_equal. lia.
  - cbn [firstn In] in H. right. destruct (c =? 0) eqn:E; [exfalso; apply H; left; lia|].
    replace (i + Z.of_nat (S m)) with ((i + 1) + Z.of_nat m) by lia. apply IH; [|lia]. intros X. apply H. right. exact X.
Qed.
Lemma scan_trace_good scan : c_scanner scan -> forall t o, denotes t o -> forall pre tail i, zlen pre = i * 2 ->
  snd (scan_trace scan (length o) i (pre ++ t ++ tail)) = true.
Proof.
  intros CS t o D. induction D as [|c1 c2 h l text o H1 H2 D IH]; intros pre tail i Hp; [reflexivity|].
  cbn [length scan_trace]. rewrite zdrop_app_exact by lia. cbn [app]. rewrite (scan_two _ CS _ _ _ _ _ H1 H2).
  specialize (IH (pre ++ [c1; c2]) tail (i + 1)).
  replace (pre ++ c1 :: c2 :: text ++ tail) with ((pre ++ [c1; c2]) ++ text ++ tail) by (rewrite <- app_assoc; reflexivity).
  destruct (scan_trace scan (length o) (i + 1) ((pre ++ [c1; c2]) ++ text ++ tail)) as [t' b]. cbn [snd] in *. apply IH.
  rewrite zlen_app. change (zlen [c1; c2]) with 2. lia.
Qed.
Lemma reads_seq n : forall i, reads_from n (Z.of_nat i) = map (fun k => RdBuf (Z.of_nat k)) (seq i n).
Proof.
  induction n as [|n IH]; intros i; [reflexivity|]. cbn [reads_from seq map]. f_equal.
  replace (Z.of_nat i + 1) with (Z.of_nat (S i)) by lia. apply IH.
Qed.
Lemma hex_starts c v : hex_code c v -> c_space c = false /\ c_starts c = true.
Proof. unfold hex_code, c_space, c_starts. intros H. split; lia. Qed.
Lemma scan_trace_exact scan : c_scanner scan -> forall t o, denotes t o -> forall pre tail i, zlen pre = Z.of_nat i * 2 ->
  fst (scan_trace scan (length o) (Z.of_nat i) (pre ++ t ++ tail)) = map (fun k => RdBuf (Z.of_nat k)) (seq (i * 2) (length t)).
Proof.
  intros CS t o D. induction D as [|c1 c2 h l text o H1 H2 D IH]; intros pre tail i Hp; [reflexivity|].
  cbn [length scan_trace]. rewrite zdrop_app_exact by lia. cbn [app]. rewrite (scan_two _ CS _ _ _ _ _ H1 H2).
  cbn [scan_reads]. destruct (hex_starts _ _ H1) as [-> ->]. change (Z.to_nat 2) with 2%nat.
  replace (Z.of_nat i * 2) with (Z.of_nat (i * 2)) by lia. rewrite reads_seq.
  specialize (IH (pre ++ [c1; c2]) tail (S i)). replace (Z.of_nat (S i)) with (Z.of_nat i + 1) in IH by lia.
  replace (pre ++ c1 :: c2 :: text ++ tail) with ((pre ++ [c1; c2]) ++ text ++ tail) by (rewrite <- app_assoc; reflexivity).
  destruct (scan_trace scan (length o) (Z.of_nat i + 1) ((pre ++ [c1; c2]) ++ text ++ tail)) as [t' b]. cbn [fst] in *.
  rewrite IH by (rewrite zlen_app; change (zlen [c1; c2]) with 2; lia). reflexivity.
Qed.
Lemma string_exact : forall str rest i, ~ In 0 str ->
  string_trace (str ++ 0 :: rest) (Z.of_nat i) = map (fun k => RdBuf (Z.of_nat k)) (seq i (length str + 1)).
Proof.
  induction str as [|c str IH]; intros rest i N; [reflexivity|]. cbn [app string_trace length Nat.add seq map]. f_equal.
  destruct (c =? 0) eqn:E; [destruct N; left; lia|]. replace (Z.of_nat i + 1) with (Z.of_nat (S i)) by lia.
  apply IH. intros H. apply N. right. exact H.
Qed.
Lemma scan_trace_first scan n i mem a : In a (reads_from (Z.to_nat (scan_reads (zdrop (i * 2) mem))) (i * 2)) ->
  In a (fst (scan_trace scan (S n) i mem)).
Proof.
  intros I. cbn [scan_trace]. destruct (scan (zdrop (i * 2) mem)); [|exact I].
  destruct (scan_trace scan n (i + 1) mem) as [t b]. apply in_or_app. left. exact I.
Qed.
Lemma scan_whites scan w r : c_scanner scan -> Forall white w -> scan (w ++ r) = scan r.
Proof. intros CS. induction 1 as [|c w H _ IH]; [reflexivity|]. cbn [app]. rewrite (scan_white _ CS) by exact H. exact IH. Qed.
Lemma parse_same scan v mem : forall n i a b, 0 <= i -> zlen a = i -> (n <= length b)%nat ->
  (forall j, i <= j < i + Z.of_nat n -> scan (zdrop (j * 2) mem) = Some v) ->
  fst (parse_loop scan n i mem (a ++ b)) = (i + Z.of_nat n, a ++ repeat v n ++ skipn n b).
Proof.
  induction n as [|n IH]; intros i a b Hi Ha L H; cbn [parse_loop].
  - cbn [repeat skipn app fst]. f_equal. lia.
  - rewrite (H i) by lia. destruct b as [|x b]; [cbn [length] in L; lia|]. rewrite <- Ha at 2. rewrite upd_at.
    specialize (IH (i + 1) (a ++ [v]) b). rewrite <- app_assoc in IH. cbn [app] in IH.
    destruct (parse_loop scan n (i + 1) mem (a ++ v :: b)) as [[r p] t]. cbn [fst] in *.
    rewrite IH; [|lia|rewrite zlen_app, Ha; reflexivity|cbn [length] in L; lia|intros j Hj; apply H; lia].
    cbn [repeat skipn]. rewrite <- app_assoc. f_equal. lia.
Qed.

(** ** The access trace is complete *)

Lemma store_in : forall n i k, In (WrPkt k) (store_trace n i) <-> i <= k < i + Z.of_nat n.
Proof.
  induction n as [|n IH]; intros i k; cbn [store_trace In]; [lia|]. rewrite IH. split.
  - intros [E|H]; [injection E as <-; lia|lia].
  - intros H. destruct (Z.eq_dec i k) as [->|N]; [left; reflexivity|right; lia].
Qed.
Lemma store_only : forall n i a, In a (store_trace n i) -> exists k, a = WrPkt k.
Proof.
  induction n as [|n IH]; intros i a; cbn [store_trace In]; [intros []|]. intros [<-|H]; eauto.
Qed.
Lemma sprintf_in : forall n i k, In (WrBuf k) (sprintf_trace n i) <-> (n <> O /\ i * 2 <= k <= (i + Z.of_nat n) * 2).
Proof.
  induction n as [|n IH]; intros i k; cbn [sprintf_trace In]; [lia|]. rewrite IH. split.
  - intros [E|[E|[E|H]]]; try (injection E as <-; lia). lia.
  - intros [_ H]. destruct (Z.eq_dec (i * 2) k) as [->|N1]; [auto|]. destruct (Z.eq_dec (i * 2 + 1) k) as [->|N2]; [auto|].
    destruct (Z.eq_dec (i * 2 + 2) k) as [->|N3]; [auto|]. do 3 right. lia.
Qed.
Lemma sprintf_only : forall n i a, In a (sprintf_trace n i) -> exists k, a = WrBuf k.
Proof.
  induction n as [|n IH]; intros i a; cbn [sprintf_trace In]; [intros []|]. intros [<-|[<-|[<-|H]]]; eauto.
Qed.
Lemma bus_accesses scan d data a : In a (daemon_trace scan d (DBus data)) <->
  (exists i, a = WrPkt i /\ 0 <= i < zlen data) \/
  (exists i, a = WrBuf i /\ 0 <= i <= 2 * zlen data /\ exists fd, In fd (dm_slots d) /\ 0 < fd).
Proof.
  cbn [daemon_trace]. pose proof (zlen_nonneg data) as L. split.
  - intros I. apply in_app_or in I. destruct I as [I|I].
    + left. destruct (store_only _ _ _ I) as [k ->]. exists k. split; [reflexivity|]. apply store_in in I. unfold zlen. lia.
    + right. apply in_flat_map in I. destruct I as (fd & F & I). apply filter_In in F. destruct F as [F1 F2].
      assert (X : exists i, a = WrBuf i /\ 0 <= i <= 2 * zlen data).
      { unfold write_to_client_trace in I. apply in_app_or in I. destruct I as [I|[<-|[]]].
        - destruct (sprintf_only _ _ _ I) as [k ->]. apply sprintf_in in I. exists k. split; [reflexivity|lia].
        - exists (zlen data * 2). split; [reflexivity|lia]. }
      destruct X as (i & -> & X). exists i. split; [reflexivity|]. split; [exact X|]. exists fd. split; [exact F1|lia].
  - intros [(i & -> & H)|(i & -> & H & fd & F1 & F2)]; apply in_or_app.
    + left. apply store_in. unfold zlen in H. lia.
    + right. apply in_flat_map. exists fd. split; [apply filter_In; split; [exact F1|lia]|].
      unfold write_to_client_trace. apply in_or_app. destruct (Z.eq_dec i (zlen data * 2)) as [->|N]; [right; left; reflexivity|].
      left. apply sprintf_in. lia.
Qed.

Lemma upd_other : forall l i v k, Z.of_nat k <> i -> nth_error (upd l i v) k = nth_error l k.
Proof.
  induction l as [|x l IH]; intros i v k N; [reflexivity|]. cbn [upd]. destruct (i =? 0) eqn:E.
  - destruct k as [|k]; [lia|]. reflexivity.
  - destruct k as [|k]; [reflexivity|]. cbn [nth_error]. apply IH. lia.
Qed.
Lemma parse_changes scan : forall n i buffer packet k,
  nth_error (snd (fst (parse_loop scan n i buffer packet))) k <> nth_error packet k ->
  In (WrPkt (Z.of_nat k)) (snd (parse_loop scan n i buffer packet)).
Proof.
  induction n as [|n IH]; intros i buffer packet k; cbn [parse_loop]; [intros X; destruct (X eq_refl)|].
  destruct (scan (zdrop (i * 2) buffer)) as [v|]; [|intros X; destruct (X eq_refl)].
  specialize (IH (i + 1) buffer (upd packet i v) k).
  destruct (parse_loop scan n (i + 1) buffer (upd packet i v)) as [[r p] t]. cbn [fst snd] in *.
  intros X. destruct (Z.eq_dec i (Z.of_nat k)) as [->|N]; [right; left; reflexivity|].
  right. right. apply IH. rewrite upd_other by lia. exact X.
Qed.
Lemma step_changes scan d e k :
  nth_error (dm_packet (fst (daemon_step scan d e))) k <> nth_error (dm_packet d) k ->
  In (WrPkt (Z.of_nat k)) (daemon_trace scan d e).
Proof.
  destruct e as [fd|data|fd chunk u]; cbn [daemon_step fst dm_packet].
  - intros X. destruct (X eq_refl).
  - intros X. apply bus_accesses. left. exists (Z.of_nat k). split; [reflexivity|]. split; [lia|].
    destruct (Z.lt_ge_cases (Z.of_nat k) (zlen data)) as [L|L]; [exact L|]. exfalso. apply X.
    rewrite overlay_over. unfold over. unfold zlen in L. rewrite nth_error_app2 by lia.
    replace (dm_packet d) with (firstn (length data) (dm_packet d) ++ skipn (length data) (dm_packet d)) at 2 by apply firstn_skipn.
    destruct (Nat.le_gt_cases (length data) (length (dm_packet d))) as [Q|Q].
    + rewrite nth_error_app2 by (rewrite firstn_length; lia). rewrite firstn_length. f_equal. lia.
    + rewrite skipn_all2 by lia. rewrite app_nil_r. transitivity (@None Z); [destruct (k - length data)%nat; reflexivity|].
      symmetry. apply nth_error_None. rewrite firstn_length. lia.
  - cbn [daemon_trace]. destruct chunk as [|c chunk].
    { cbn. intros X. destruct (X eq_refl). }
    destruct (read_steps scan u (c :: chunk) (dm_packet d) ltac:(discriminate)) as (t1 & _ & ->).
    destruct (negb _); [cbn; intros X; destruct (X eq_refl)|].
    pose proof (parse_changes scan (Z.to_nat (Z.quot (left_bytes u (c :: chunk)) 2)) 0 ((c :: chunk) ++ ar_behind u) (dm_packet d) k) as P.
    destruct (parse_loop scan (Z.to_nat (Z.quot (left_bytes u (c :: chunk)) 2)) 0 ((c :: chunk) ++ ar_behind u) (dm_packet d)) as [[r p] t].
    cbn [fst snd] in *. intros X. apply in_or_app. right. apply P. intros Y. apply X. rewrite <- Y. destruct (r >=? 0); reflexivity.
Qed.

(** The accesses of a good line, one after the other. *)
Fixpoint pairs_trace (n : nat) (i : Z) : list access :=
  match n with O => [] | S n' => RdBuf (2 * i) :: WrPkt i :: pairs_trace n' (i + 1) end.
Lemma parse_good_trace scan : c_scanner scan -> forall t o, denotes t o -> forall pre tail packet i,
  zlen pre = 2 * i -> snd (parse_loop scan (length o) i (pre ++ t ++ tail) packet) = pairs_trace (length o) i.
Proof.
  intros CS t o D. induction D as [|c1 c2 h l text o H1 H2 D IH]; intros pre tail packet i Hp; [reflexivity|].
  cbn [length parse_loop pairs_trace]. rewrite zdrop_app_exact by lia. cbn [app].
  rewrite (scan_two _ CS _ _ _ _ _ H1 H2).
  specialize (IH (pre ++ [c1; c2]) tail (upd packet i (16 * h + l)) (i + 1)).
  replace (pre ++ c1 :: c2 :: text ++ tail) with ((pre ++ [c1; c2]) ++ text ++ tail) by (rewrite <- app_assoc; reflexivity).
  destruct (parse_loop scan (length o) (i + 1) ((pre ++ [c1; c2]) ++ text ++ tail) (upd packet i (16 * h + l))) as [[r p] tr].
  cbn [snd] in *. rewrite IH; [rewrite (Z.mul_comm i); reflexivity|]. rewrite zlen_app. change (zlen [c1; c2]) with 2. lia.
Qed.
Lemma pairs_in : forall n i k, In (WrPkt k) (pairs_trace n i) <-> i <= k < i + Z.of_nat n.
Proof.
  induction n as [|n IH]; intros i k; cbn [pairs_trace In]; [lia|]. rewrite IH. split.
  - intros [E|[E|H]]; [discriminate E|injection E as <-; lia|lia].
  - intros H. destruct (Z.eq_dec i k) as [->|N]; [right; left; reflexivity|do 2 right; lia].
Qed.
Lemma pairs_read : forall n i k, In (RdBuf k) (pairs_trace n i) <-> exists j, k = 2 * j /\ i <= j < i + Z.of_nat n.
Proof.
  induction n as [|n IH]; intros i k; cbn [pairs_trace In]; [split; [intros []|intros (j & _ & H); lia]|]. rewrite IH. split.
  - intros [E|[E|(j & -> & H)]]; [injection E as <-; exists i; lia|discriminate E|exists j; lia].
  - intros (j & -> & H). destruct (Z.eq_dec i j) as [->|N]; [left; reflexivity|do 2 right; exists j; lia].
Qed.
Lemma pairs_writes : forall n i k, ~ In (WrBuf k) (pairs_trace n i).
Proof. induction n as [|n IH]; intros i k; cbn [pairs_trace In]; [intros []|]. intros [E|[E|H]]; try discriminate E. exact (IH _ _ H). Qed.
Lemma line_accesses scan d fd t o eol u a : c_scanner scan -> denotes t o -> ends eol -> t ++ eol <> [] -> o <> [] ->
  (In a (daemon_trace scan d (DClient fd (t ++ eol) u)) <->
   (exists i, (a = WrPkt i \/ a = RdBuf (2 * i)) /\ 0 <= i < zlen o) \/
   a = RdBuf (zlen (t ++ eol) - 1) \/ (a = RdBuf (zlen (t ++ eol) - 2) /\ eol <> [])).
Proof.
  intros CS D E N No. cbn [daemon_trace].
  assert (T : t <> []) by (intros ->; inversion D; subst; contradiction).
  destruct (exists_last T) as (t' & c & Et).
  assert (Nc : ~ line_end c) by (intros X; apply eol_spec in X; rewrite (denotes_last _ _ D _ _ Et) in X; discriminate).
  assert (S0 : left_bytes u (t ++ eol) = 2 * zlen o).
  { rewrite <- (denotes_len _ _ D). rewrite Et, <- app_assoc, stripped_body by assumption. rewrite zlen_app. reflexivity. }
  assert (R : exists t1, (forall b, In b t1 <-> b = RdBuf (zlen (t ++ eol) - 1) \/ (b = RdBuf (zlen (t ++ eol) - 2) /\ eol <> [])) /\
     snd (read_from_client scan u (t ++ eol) (dm_packet d)) =
     t1 ++ snd (parse_loop scan (Z.to_nat (Z.quot (left_bytes u (t ++ eol)) 2)) 0 ((t ++ eol) ++ ar_behind u) (dm_packet d))).
  { unfold read_from_client. pose proof (zlen_nonneg t) as Lt. pose proof (zlen_nonneg eol) as Le.
    assert (Lp : 1 <= zlen t). { rewrite Et, zlen_app. change (zlen [c]) with 1. pose proof (zlen_nonneg t'). lia. }
    rewrite zlen_app. destruct (zlen t + zlen eol =? 0) eqn:Z0; [lia|]. cbv zeta.
    assert (LB := S0). unfold left_bytes in LB. cbv zeta in LB. rewrite zlen_app in LB.
    unfold left_bytes. cbv zeta. rewrite zlen_app.
    destruct (zlen t + zlen eol - 1 =? -1) eqn:Z1; [lia|].
    set (b1 := is_eol (match znth (zlen t + zlen eol - 1) (t ++ eol) with Some c0 => c0 | None => 0 end)) in *.
    assert (B1 : b1 = negb (zlen eol =? 0)).
    { subst b1. destruct eol as [|x eol].
      - rewrite app_nil_r. change (zlen (@nil Z)) with 0. cbn [negb Z.eqb]. rewrite Z.add_0_r.
        rewrite znth_nth by lia. rewrite Et, zlen_app. change (zlen [c]) with 1. pose proof (zlen_nonneg t').
        rewrite nth_error_app2 by (unfold zlen; lia). replace (Z.to_nat (zlen t' + 1 - 1) - length t')%nat with 0%nat by (unfold zlen; lia).
        cbn [nth_error]. destruct (is_eol c) eqn:Y; [apply eol_spec in Y; contradiction|reflexivity].
      - destruct (exists_last (l := x :: eol) ltac:(discriminate)) as (e' & y & Ey). destruct E as [E _]. rewrite Ey in *.
        apply Forall_app in E. destruct E as [_ E]. assert (Ly : line_end y) by (inversion E; assumption). rewrite !(zlen_app e' [y]). change (zlen [y]) with 1.
        pose proof (zlen_nonneg e') as Le'. destruct (zlen e' + 1 =? 0) eqn:Q; [lia|]. cbn [negb].
        rewrite znth_nth by (rewrite ?zlen_app; lia). rewrite app_assoc. rewrite nth_error_app2 by (rewrite app_length; unfold zlen in *; lia).
        replace (Z.to_nat (zlen t + (zlen e' + 1) - 1) - length (t ++ e'))%nat with 0%nat by (rewrite app_length; unfold zlen; lia).
        cbn [nth_error]. apply eol_spec. exact Ly. }
    rewrite LB. rewrite (Z.mul_comm 2), Z.rem_mul by lia. change (0 =? 0) with true. cbn [negb].
    match goal with |- context [parse_loop ?s ?n ?i ?b ?p] => destruct (parse_loop s n i b p) as [[r p'] tr] end.
    cbn [snd]. eexists. split; [|rewrite app_assoc; reflexivity].
    intros b. cbn [app In]. rewrite B1. destruct eol as [|x eol].
    - change (zlen (@nil Z)) with 0. cbn [negb Z.eqb]. split; [intros [<-|[<-|[]]]; auto|intros [->|[_ X]]; [auto|contradiction]].
    - rewrite zlen_cons. pose proof (zlen_nonneg eol). destruct (zlen eol + 1 =? 0) eqn:Q; [lia|]. cbn [negb].
      replace (zlen t + (zlen eol + 1) - 1 - 1) with (zlen t + (zlen eol + 1) - 2) by lia.
      split; [intros [<-|[<-|[]]]; auto; right; split; [reflexivity|discriminate]|intros [->|[-> _]]; auto]. }
  destruct R as (t1 & R1 & R2). rewrite R2, S0. rewrite (Z.mul_comm 2), Z.quot_mul by lia. unfold zlen at 1. rewrite Nat2Z.id.
  rewrite <- app_assoc. pose proof (parse_good_trace scan CS t o D [] (eol ++ ar_behind u) (dm_packet d) 0 eq_refl) as PT.
  cbn [app] in PT. rewrite PT.
  rewrite in_app_iff, R1. split.
  - intros [H|H]; [right; exact H|]. left. destruct a as [k|k|k].
    + apply pairs_read in H. destruct H as (j & -> & H). exists j. split; [right; reflexivity|unfold zlen; lia].
    + exfalso. exact (pairs_writes _ _ _ H).
    + apply pairs_in in H. exists k. split; [left; reflexivity|unfold zlen; lia].
  - intros [(i & [->| ->] & H)|H]; [right; apply pairs_in; unfold zlen in H; lia|right; apply pairs_read; exists i; unfold zlen in H; lia|left; exact H].
Qed.
