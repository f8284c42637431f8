(** Proofs about a network that reorders datagrams (C117). *)
From Coq Require Import String Ascii ZArith List Bool Lia ZifyBool Sorting.Sorted.
From Verif Require Import Py Base Msg Address Dpt Tables LData Inet State Encode Decode Client.
From Verif Require Import SpecMsg SpecTables SpecWire SpecDecode SpecClient SpecSystem SpecReorder.
From Verif Require Import MsgProofs ClientProofs DeliveryProofs SystemProofs.
Import ListNotations.
Open Scope Z_scope.

Lemma map_overtake {A B} (f : A -> B) n l : map f (overtake n l) = overtake n (map f l).
Proof. unfold overtake. rewrite map_app, map_lose, <- firstn_map, <- skipn_map. reflexivity. Qed.
Lemma overtake_incl {A} n (l : list A) : incl (overtake n l) l.
Proof.
  unfold overtake. apply incl_app; [|apply lose_incl]. intros x I. rewrite <- (firstn_skipn n l). apply in_or_app. right.
  rewrite <- (firstn_skipn 1 (skipn n l)). apply in_or_app. left. exact I.
Qed.
Definition over_down (n : nat) (a : abs) : abs :=
  mkabs (a_g a) (a_r a) (a_k a) (a_l a) (overtake n (a_down a)) (a_up a) (a_dlv a) (a_wr a) (a_bp a).
Definition over_up (n : nat) (a : abs) : abs :=
  mkabs (a_g a) (a_r a) (a_k a) (a_l a) (a_down a) (overtake n (a_up a)) (a_dlv a) (a_wr a) (a_bp a).

Local Arguments overtake : simpl never.

(** Invariants of the numbered system that survive overtaking hold throughout. *)
Lemma ry_inv (P : abs -> Prop) ip ch s0 frame ts : 0 <= ch < 256 -> fits s0 -> sendable frame ->
  (forall x a h, legal x -> P a -> P (astep x a h)) -> (forall n a, P a -> P (over_down n a)) -> (forall n a, P a -> P (over_up n a)) ->
  forall s a, sim ip ch s0 frame s a -> P a -> exists a', sim ip ch s0 frame (ry_run frame s ts) a' /\ P a'.
Proof.
  intros Hch F0 Mf HP HD HU. induction ts as [|t ts IH]; intros s a S Pa; [exists a; split; assumption|]. destruct t as [h|n|n].
  - destruct (sim_step ip ch s0 frame s a h Hch F0 Mf S) as (x & h' & Lx & _ & S1). apply (IH _ (astep x a h') S1). apply HP; assumption.
  - apply (IH _ (over_down n a)); [|apply HD; exact Pa]. destruct S. constructor; cbn; try assumption. rewrite map_overtake, <- m_down. reflexivity.
  - apply (IH _ (over_up n a)); [|apply HU; exact Pa]. destruct S. constructor; cbn; try assumption.
    + rewrite map_overtake, <- m_up. reflexivity.
    + exact (incl_Forall' _ _ _ (overtake_incl n _) m_item).
Qed.

(** ** To the client *)
Record inr (a : abs) : Prop := {
  q_g : 0 <= a_g a;
  q_k : 0 <= a_k a;
  q_gk : a_g a - 1 <= a_k a <= a_g a + 1;
  q_dreq : Forall (fun x => match x with DReq i => 0 <= i <= a_g a | _ => True end) (a_down a);
  q_uack : Forall (fun x => match x with UAck v => 0 <= v <= a_k a | _ => True end) (a_up a);
  q_dlv : a_dlv a = upto (a_k a)
}.
Definition early (a : abs) : Prop := a_g a <= 254 -> inr a.
Lemma g_grows x a h : a_g a <= a_g (astep x a h).
Proof.
  destruct h; unfold astep; cbn; try lia.
  - destruct (a_down a) as [|[i|j] q]; cbn; try lia. split_if; [cbn; lia|]. split_if; cbn; lia.
  - destruct (a_up a) as [|[p j c|v|d] q]; cbn; try lia; [split_if; [cbn; lia|]; split_if; cbn; lia|split_if; lia].
Qed.
Lemma early_step x a h : early a -> early (astep x a h).
Proof.
  intros Pa Hg. pose proof (g_grows x a h) as Gr. assert (Ha : a_g a <= 254) by lia. clear Gr Hg. destruct (Pa Ha). clear Pa.
  assert (UA : forall k' y, a_k a <= k' -> 0 <= y <= k' ->
    Forall (fun x => match x with UAck v => 0 <= v <= k' | _ => True end) (a_up a ++ [UAck y])).
  { intros k' y H1 H2. apply Forall_app. split; [|constructor; [exact H2|constructor]]. eapply Forall_impl; [|exact q_uack0].
    intros [p j c|v|d] H; cbn; try exact I. lia. }
  destruct h as [| | | |n|n|n|n]; unfold astep.
  - constructor; cbn; try assumption. apply Forall_app. split; [assumption|]. constructor; [lia|constructor].
  - destruct (a_down a) as [|[i|j] q] eqn:Eq; [constructor; try rewrite Eq; assumption| |];
      pose proof (Forall_inv q_dreq0) as Bi; pose proof (Forall_inv_tail q_dreq0) as Bq; cbn in Bi.
    + destruct (i mod 256 =? a_k a mod 256) eqn:E1; [|destruct (a_k a mod 256 =? i mod 256 + 1) eqn:E2].
      * assert (i = a_k a) by lia. subst i. constructor; cbn; try assumption; try lia; [apply UA; lia|].
        rewrite upto_S by assumption. rewrite q_dlv0. reflexivity.
      * constructor; cbn; try assumption. apply UA; lia.
      * constructor; cbn; assumption.
    + constructor; cbn; assumption.
  - destruct (a_up a) as [|[p j cemi|v|d] q] eqn:Eq; [constructor; try rewrite Eq; assumption| | |];
      pose proof (Forall_inv q_uack0) as Bv; pose proof (Forall_inv_tail q_uack0) as Bq; cbn in Bv.
    + assert (Y : forall y, Forall (fun x => match x with DReq i => 0 <= i <= a_g a | _ => True end) (a_down a ++ [DAck y])) by
        (intros y; apply Forall_app; split; [assumption|repeat constructor]).
      split_if; [|split_if]; constructor; cbn; auto.
    + destruct (v mod 256 =? a_g a mod 256) eqn:E.
      * assert (v = a_g a) by lia. subst v. constructor; cbn; try assumption; try lia.
        eapply Forall_impl; [|exact q_dreq0]. intros [i|i] H; cbn; [lia|exact I].
      * constructor; cbn; assumption.
    + constructor; cbn; assumption.
  - constructor; cbn; try assumption. apply Forall_app. split; [assumption|]. destruct x as [[[cemi|] d]|]; cbn; repeat constructor.
  - constructor; cbn; try assumption. apply (incl_Forall' _ _ _ (lose_incl n _)); assumption.
  - constructor; cbn; try assumption. apply (incl_Forall' _ _ _ (lose_incl n _)); assumption.
  - constructor; cbn; try assumption. apply (incl_Forall' _ _ _ (again_incl n _)); assumption.
  - constructor; cbn; try assumption. apply (incl_Forall' _ _ _ (again_incl n _)); assumption.
Qed.
Lemma early_down n a : early a -> early (over_down n a).
Proof. intros P H. destruct (P H). constructor; cbn; try assumption. apply (incl_Forall' _ _ _ (overtake_incl n _)); assumption. Qed.
Lemma early_up n a : early a -> early (over_up n a).
Proof. intros P H. destruct (P H). constructor; cbn; try assumption. apply (incl_Forall' _ _ _ (overtake_incl n _)); assumption. Qed.

(** ** To the bus *)
Record outr (a : abs) : Prop := {
  o_r : 0 <= a_r a <= zlen (a_wr a);
  o_l : 0 <= a_l a;
  o_lr : a_l a <= a_r a <= a_l a + 1;
  o_ureq : Forall (fun x => match x with
                            | UReq p j cemi => 0 <= j <= a_l a /\ nth_error (a_wr a) p = Some (j, cemi)
                            | _ => True end) (a_up a);
  o_dack : Forall (fun x => match x with DAck j => 0 <= j <= a_r a - 1 | _ => True end) (a_down a);
  o_top : Forall (fun w => fst w <= a_l a) (a_wr a);
  o_low : forall p, (p < length (a_wr a))%nat -> counter_at (a_wr a) p <= Z.of_nat p;
  o_rise : forall p q, (p <= q < length (a_wr a))%nat -> counter_at (a_wr a) p <= counter_at (a_wr a) q;
  o_sorted : StronglySorted lt (a_bp a);
  o_len : Forall (fun p => (p < length (a_wr a))%nat) (a_bp a);
  o_bp : map (counter_at (a_wr a)) (a_bp a) = upto (a_r a)
}.
Definition few (a : abs) : Prop := zlen (a_wr a) <= 255 -> outr a.
Lemma wr_grows x a h : zlen (a_wr a) <= zlen (a_wr (astep x a h)).
Proof.
  destruct h; unfold astep; cbn; try lia.
  - destruct (a_down a) as [|[i|j] q]; cbn; try lia. split_if; [cbn; lia|]. split_if; cbn; lia.
  - destruct (a_up a) as [|[p j c|v|d] q]; cbn; try lia. split_if; [cbn; lia|]. split_if; cbn; lia.
  - rewrite zlen_app'. pose proof (zlen_pos (match x with Some (Some cemi, _) => [(a_l a, cemi)] | _ => [] end)). lia.
Qed.
Lemma nth_top (wr : list (Z * list Z)) l p : Forall (fun w => fst w <= l) wr -> (p < length wr)%nat -> counter_at wr p <= l.
Proof.
  intros F L. unfold counter_at. rewrite Forall_forall in F. apply F. apply nth_In. exact L.
Qed.
Lemma counter_at_last wr j c : counter_at (wr ++ [(j, c)]) (length wr) = j.
Proof. unfold counter_at. rewrite app_nth2, Nat.sub_diag by lia. reflexivity. Qed.
Lemma few_step x a h : few a -> few (astep x a h).
Proof.
  intros Pa Hg. pose proof (wr_grows x a h) as Gr. assert (Ha : zlen (a_wr a) <= 255) by lia. clear Gr. destruct (Pa Ha). clear Pa.
  assert (Y : forall y, Forall (fun x => match x with
                            | UReq p j cemi => 0 <= j <= a_l a /\ nth_error (a_wr a) p = Some (j, cemi)
                            | _ => True end) (a_up a ++ [UAck y])) by
    (intros y; apply Forall_app; split; [assumption|repeat constructor]).
  destruct h as [| | | |n|n|n|n]; unfold astep.
  - constructor; cbn; try assumption. apply Forall_app. split; [assumption|repeat constructor].
  - destruct (a_down a) as [|[i|j] q] eqn:Eq; [constructor; try rewrite Eq; assumption| |];
      pose proof (Forall_inv o_dack0) as Bi; pose proof (Forall_inv_tail o_dack0) as Bq; cbn in Bi.
    + split_if; [|split_if]; constructor; cbn; auto.
    + destruct (j mod 256 =? a_l a mod 256) eqn:E.
      * assert (j = a_l a) by lia. subst j. constructor; cbn; try assumption; try lia.
        -- eapply Forall_impl; [|exact o_ureq0]. intros [p j c|v|d] Hdi; try exact I. intuition lia.
        -- eapply Forall_impl; [|exact o_top0]. intros w Hw. cbn in *. lia.
      * constructor; cbn; assumption.
  - destruct (a_up a) as [|[p j cemi|v|d] q] eqn:Eq; [constructor; try rewrite Eq; assumption| | |];
      pose proof (Forall_inv o_ureq0) as Bv; pose proof (Forall_inv_tail o_ureq0) as Bq; cbn in Bv.
    + destruct Bv as (Bj & Np).
      assert (Lp : (p < length (a_wr a))%nat) by (apply nth_error_Some; congruence).
      assert (Cp : counter_at (a_wr a) p = j) by (unfold counter_at; rewrite (nth_error_nth _ _ _ Np); reflexivity).
      pose proof (o_low0 p Lp) as Lo. rewrite Cp in Lo.
      assert (DA : forall r' y, a_r a <= r' -> 0 <= y <= r' - 1 ->
        Forall (fun x => match x with DAck j => 0 <= j <= r' - 1 | _ => True end) (a_down a ++ [DAck y])).
      { intros r' y H1 H2. apply Forall_app. split; [|constructor; [exact H2|constructor]]. eapply Forall_impl; [|exact o_dack0].
        intros [i|i] H; cbn; [exact I|lia]. }
      unfold zlen in *.
      destruct (j mod 256 =? a_r a mod 256) eqn:E1; [|destruct (j mod 256 =? (a_r a - 1) mod 256) eqn:E2].
      * assert (Ej : j = a_r a) by lia. rewrite Ej in *. constructor; cbn; try assumption; unfold zlen; try lia.
        -- apply DA; lia.
        -- apply sorted_snoc; [assumption|]. rewrite Forall_forall in *. intros b Ib.
           assert (Ic : In (counter_at (a_wr a) b) (upto (a_r a))) by (rewrite <- o_bp0; apply in_map; exact Ib).
           apply in_upto in Ic. specialize (o_len0 b Ib). destruct (Nat.lt_ge_cases b p) as [Lt|Ge]; [exact Lt|].
           specialize (o_rise0 p b ltac:(lia)). lia.
        -- apply Forall_app. split; [assumption|]. constructor; [exact Lp|constructor].
        -- rewrite map_app, o_bp0, upto_S by lia. cbn. rewrite Cp. reflexivity.
      * assert (j = a_r a - 1) by lia. constructor; cbn; try assumption; unfold zlen; try lia. apply DA; lia.
      * constructor; cbn; assumption.
    + constructor; cbn; assumption.
    + constructor; cbn; assumption.
  - assert (Zc : forall w, map (counter_at (a_wr a ++ w)) (a_bp a) = upto (a_r a)).
    { intros w. rewrite <- o_bp0. apply map_ext_in. intros p Ip. apply counter_at_app. rewrite Forall_forall in o_len0. auto. }
    destruct x as [[[cemi|] d]|]; cbn [items_of]; cycle 1; rewrite ?app_nil_r.
    { constructor; cbn; try assumption. apply Forall_app. split; [assumption|repeat constructor]. }
    { constructor; cbn; assumption. }
    constructor; cbn; try assumption; try (rewrite app_length; cbn).
    + rewrite zlen_app'. cbn. lia.
    + apply Forall_app. split.
      * eapply Forall_impl; [|exact o_ureq0]. intros [p j c|v|e] H; try exact I. destruct H as (B1 & B2). split; [exact B1|].
        rewrite nth_error_app1; [exact B2|]. apply nth_error_Some. congruence.
      * constructor; [|constructor]. split; [lia|]. rewrite nth_error_app2 by reflexivity. rewrite Nat.sub_diag. reflexivity.
    + apply Forall_app. split; [assumption|]. constructor; [cbn; lia|constructor].
    + intros p Lp. destruct (Nat.eq_dec p (length (a_wr a))) as [->|Np].
      * rewrite counter_at_last. unfold zlen in *. lia.
      * rewrite counter_at_app by lia. apply o_low0. lia.
    + intros p q Lp. destruct (Nat.eq_dec q (length (a_wr a))) as [->|Nq].
      * rewrite counter_at_last. destruct (Nat.eq_dec p (length (a_wr a))) as [->|Np]; [rewrite counter_at_last; lia|].
        rewrite counter_at_app by lia. apply nth_top; [exact o_top0|lia].
      * rewrite !counter_at_app by lia. apply o_rise0. lia.
    + eapply Forall_impl; [|exact o_len0]. intros p Hp. cbn in Hp. lia.
    + apply Zc.
  - constructor; cbn; try assumption. apply (incl_Forall' _ _ _ (lose_incl n _)); assumption.
  - constructor; cbn; try assumption. apply (incl_Forall' _ _ _ (lose_incl n _)); assumption.
  - constructor; cbn; try assumption. apply (incl_Forall' _ _ _ (again_incl n _)); assumption.
  - constructor; cbn; try assumption. apply (incl_Forall' _ _ _ (again_incl n _)); assumption.
Qed.
Lemma few_down n a : few a -> few (over_down n a).
Proof. intros P H. destruct (P H). constructor; cbn; try assumption. apply (incl_Forall' _ _ _ (overtake_incl n _)); assumption. Qed.
Lemma few_up n a : few a -> few (over_up n a).
Proof. intros P H. destruct (P H). constructor; cbn; try assumption. apply (incl_Forall' _ _ _ (overtake_incl n _)); assumption. Qed.
Lemma few_start : few (mkabs 0 0 0 0 [] [] [] [] []).
Proof. intros _. constructor; cbn; try lia; try (intros; lia); constructor. Qed.
Lemma early_start l : early (mkabs 0 0 0 l [] [] [] [] []).
Proof. intros _. constructor; cbn; try lia; constructor. Qed.
Lemma bus_picked a : outr a -> part_of (map (frame_at (a_wr a)) (a_bp a)) (map snd (a_wr a)).
Proof.
  intros []. assert (map (frame_at (a_wr a)) (a_bp a) = map (fun p => nth (p - 0) (map snd (a_wr a)) []) (a_bp a)) as ->.
  { apply map_ext. intros p. rewrite Nat.sub_0_r. unfold frame_at. change (@nil Z) with (snd (0, @nil Z)) at 2. rewrite map_nth. reflexivity. }
  apply picked; [assumption|]. eapply Forall_impl; [|exact o_len0]. intros p Hp. cbn in Hp. rewrite map_length. lia.
Qed.

(** ** Paced turns *)
Definition in_turn (a : abs) : Prop := zlen (a_wr a) <= 255 ->
  outr a /\ zlen (a_wr a) <= a_l a + 1 /\ forall p, (p < length (a_wr a))%nat -> counter_at (a_wr a) p = Z.of_nat p.
Lemma in_turn_few a : in_turn a -> few a.
Proof. intros P H. apply P. exact H. Qed.
Lemma l_grows x a h : a_l a <= a_l (astep x a h).
Proof.
  destruct h; unfold astep; cbn; try lia.
  - destruct (a_down a) as [|[i|j] q]; cbn; try lia; [split_if; [cbn; lia|]; split_if; cbn; lia|split_if; lia].
  - destruct (a_up a) as [|[p j c|v|d] q]; cbn; try lia. split_if; [cbn; lia|]. split_if; cbn; lia.
Qed.
Lemma wr_same x a h : h <> Turn -> a_wr (astep x a h) = a_wr a.
Proof.
  intros N. destruct h; unfold astep; cbn; try reflexivity; [| |contradiction].
  - destruct (a_down a) as [|[i|j] q]; cbn; try reflexivity. split_if; [reflexivity|]. split_if; reflexivity.
  - destruct (a_up a) as [|[p j c|v|d] q]; cbn; try reflexivity. split_if; [reflexivity|]. split_if; reflexivity.
Qed.
Lemma in_turn_step x a h : (h = Turn -> a_l a mod 256 = zlen (a_wr a) mod 256) -> in_turn a -> in_turn (astep x a h).
Proof.
  intros Ht P Hg. pose proof (wr_grows x a h) as Gr. pose proof (few_step x a h (in_turn_few a P) Hg) as O'. destruct (P ltac:(lia)) as (O & Hl & Hc).
  split; [exact O'|]. clear O'. pose proof (l_grows x a h) as Gl.
  assert (D : h = Turn \/ h <> Turn) by (destruct h; auto; right; discriminate). destruct D as [->|N]; [|rewrite wr_same in * by exact N; split; [lia|exact Hc]].
  specialize (Ht eq_refl). destruct O. unfold astep in *; cbn [a_wr a_l] in *.
  destruct x as [[[cemi|] d]|]; rewrite ?app_nil_r in *; try (split; [lia|exact Hc]).
  rewrite zlen_app' in *. change (zlen [(a_l a, cemi)]) with 1 in *. assert (El : a_l a = zlen (a_wr a)) by lia. split; [lia|].
  rewrite app_length. cbn. intros p Lp. destruct (Nat.eq_dec p (length (a_wr a))) as [->|Np].
  - rewrite counter_at_last. exact El.
  - rewrite counter_at_app by lia. apply Hc. lia.
Qed.
Lemma in_turn_down n a : in_turn a -> in_turn (over_down n a).
Proof. intros P H. destruct (P H) as (O & R). split; [exact (few_down n a (fun _ => O) H)|exact R]. Qed.
Lemma in_turn_up n a : in_turn a -> in_turn (over_up n a).
Proof. intros P H. destruct (P H) as (O & R). split; [exact (few_up n a (fun _ => O) H)|exact R]. Qed.
Lemma in_turn_start : in_turn (mkabs 0 0 0 0 [] [] [] [] []).
Proof. intros H. split; [exact (few_start H)|]. cbn. split; [lia|]. intros p Hp. lia. Qed.
Lemma ry_in_turn ip ch s0 frame ts : 0 <= ch < 256 -> fits s0 -> sendable frame ->
  forall s a, sim ip ch s0 frame s a -> in_turn a -> ry_paced frame s ts ->
  exists a', sim ip ch s0 frame (ry_run frame s ts) a' /\ in_turn a'.
Proof.
  intros Hch F0 Mf. induction ts as [|t ts IH]; intros s a S Pa Pp; [exists a; split; assumption|]. destruct Pp as [Pt Pr].
  destruct t as [h|n|n].
  - destruct (sim_step ip ch s0 frame s a h Hch F0 Mf S) as (x & h' & Lx & Eh & S1). apply (IH _ (astep x a h') S1); [|exact Pr].
    apply in_turn_step; [|exact Pa]. intros E. destruct Eh as [[-> _]|[_ ->]]; [|discriminate E]. subst h. specialize (Pt eq_refl).
    rewrite (m_l _ _ _ _ _ _ S), (m_wr _ _ _ _ _ _ S) in Pt. rewrite Pt. unfold zlen. rewrite map_length. reflexivity.
  - apply (IH _ (over_down n a)); [|apply in_turn_down; exact Pa|exact Pr]. destruct S. constructor; cbn; try assumption. rewrite map_overtake, <- m_down. reflexivity.
  - apply (IH _ (over_up n a)); [|apply in_turn_up; exact Pa|exact Pr]. destruct S. constructor; cbn; try assumption.
    + rewrite map_overtake, <- m_up. reflexivity.
    + exact (incl_Forall' _ _ _ (overtake_incl n _) m_item).
Qed.
Lemma in_turn_bus a : in_turn a -> zlen (a_wr a) <= 255 ->
  map (frame_at (a_wr a)) (a_bp a) = firstn (Z.to_nat (a_r a)) (map snd (a_wr a)).
Proof.
  intros P H. destruct (P H) as ([] & _ & Hc).
  assert (E : map Z.of_nat (a_bp a) = upto (a_r a)).
  { rewrite <- o_bp0. apply map_ext_in. intros p Ip. rewrite Forall_forall in o_len0. symmetry. auto. }
  assert (B : a_bp a = seq 0 (Z.to_nat (a_r a))).
  { unfold upto in E. pose proof (f_equal (map Z.to_nat) E) as E'. rewrite !map_map in E'.
    rewrite !(map_ext (fun x => Z.to_nat (Z.of_nat x)) (fun x => x)) in E' by (intros; apply Nat2Z.id). rewrite !map_id in E'. exact E'. }
  rewrite B. change (map snd (a_wr a)) with (skipn 0 (map snd (a_wr a))). rewrite <- (firstn_seq_nth []).
  - apply map_ext. intros p. unfold frame_at. change (@nil Z) with (snd (0, @nil Z)) at 2. rewrite map_nth. reflexivity.
  - rewrite map_length. unfold zlen in *. lia.
Qed.

(** Checking pace by computation. *)
Fixpoint pacedb (frame : Z -> list Z) (s : system) (ts : list turbulence) : bool :=
  match ts with
  | [] => true
  | t :: r =>
      match t with
      | Usual Turn => st_local (c_state (sy_client s)) =? zlen (written s) mod 256
      | _ => true
      end && pacedb frame (ry_step frame s t) r
  end.
Lemma pacedb_sound frame ts : forall s, pacedb frame s ts = true -> ry_paced frame s ts.
Proof.
  induction ts as [|t ts IH]; intros s H; [exact I|]. cbn [pacedb] in H. apply andb_true_iff in H as [H1 H2]. split; [|exact (IH _ H2)].
  intros ->. apply Z.eqb_eq. exact H1.
Qed.
