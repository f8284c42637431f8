(** Proofs about messages on a lossy network (C114). *)
From Coq Require Import String Ascii ZArith List Bool Lia ZifyBool.
From Verif Require Import Py Base Msg Address Dpt Tables LData Inet State Encode Decode Client.
From Verif Require Import SpecMsg SpecTables SpecWire SpecDecode SpecClient SpecSystem SpecLossy.
From Verif Require Import DecodeProofs ClientProofs DeliveryProofs SystemProofs.
Import ListNotations.
Open Scope Z_scope.

Definition rest_abs (lag : bool) (a : abs) : Prop :=
  a_down a = [] /\ a_up a = [] /\ a_k a = a_g a /\ a_l a mod 256 = (a_r a - if lag then 1 else 0) mod 256.
(** The state after a message with fate [f]. *)
Definition settled (lag : bool) (f : fate) (cemi : list Z) (a : abs) : abs :=
  let new := negb lag && match f with Ask_lost => false | _ => true end in
  mkabs (a_g a) (if new then a_r a + 1 else a_r a) (a_k a) (if confirmed f then a_l a + 1 else a_l a) [] []
    (a_dlv a) (a_wr a ++ [(a_l a, cemi)]) (a_bp a ++ if new then [length (a_wr a)] else []).

Lemma up_new g r k l p j c q dn dl wr bp : j mod 256 = r mod 256 ->
  astep None (mkabs g r k l dn (UReq p j c :: q) dl wr bp) Arrive_up = mkabs g (r + 1) k l (dn ++ [DAck r]) q dl wr (bp ++ [p]).
Proof. intros E. cbn [astep a_up a_down a_k a_g a_r a_l a_dlv a_wr a_bp]. rewrite E, Z.eqb_refl. reflexivity. Qed.
Lemma up_old g r k l p j c q dn dl wr bp : j mod 256 = (r - 1) mod 256 ->
  astep None (mkabs g r k l dn (UReq p j c :: q) dl wr bp) Arrive_up = mkabs g r k l (dn ++ [DAck (r - 1)]) q dl wr bp.
Proof.
  intros E. cbn [astep a_up a_down a_k a_g a_r a_l a_dlv a_wr a_bp]. rewrite E, Z.eqb_refl.
  replace ((r - 1) mod 256 =? r mod 256) with false by lia. reflexivity.
Qed.
Lemma down_yes g r k l j q up dl wr bp : j mod 256 = l mod 256 ->
  astep None (mkabs g r k l (DAck j :: q) up dl wr bp) Arrive_down = mkabs g r k (l + 1) q up dl wr bp.
Proof. intros E. cbn [astep a_up a_down a_k a_g a_r a_l a_dlv a_wr a_bp]. rewrite E, Z.eqb_refl. reflexivity. Qed.
Lemma down_no g r k l j q up dl wr bp : j mod 256 <> l mod 256 ->
  astep None (mkabs g r k l (DAck j :: q) up dl wr bp) Arrive_down = mkabs g r k l q up dl wr bp.
Proof. intros E. cbn [astep a_up a_down a_k a_g a_r a_l a_dlv a_wr a_bp]. replace (j mod 256 =? l mod 256) with false by lia. reflexivity. Qed.
Lemma up_again g r k l x dn dl wr bp : astep None (mkabs g r k l dn [x] dl wr bp) (Repeat_up 0) = mkabs g r k l dn [x; x] dl wr bp.
Proof. reflexivity. Qed.

Section Rounds.
  Variables (ip : list Z) (ch : Z) (s0 : state) (frame : Z -> list Z).
  Hypotheses (Hch : 0 <= ch < 256) (F0 : fits s0) (Mf : meaningful s0 frame).
  Let sd := meaningful_sendable s0 frame Mf.

  Lemma fixed s a h : sim ip ch s0 frame s a -> h <> Turn -> sim ip ch s0 frame (sy_step frame s h) (astep None a h).
  Proof. intros S N. apply (sim_step_fixed ip ch s0 frame s a h Hch F0 sd S N). apply (meaningful_takes s0 frame a h Mf). Qed.
  Lemma fixed_run hs : Forall (fun h => h <> Turn) hs -> forall s a, sim ip ch s0 frame s a ->
    sim ip ch s0 frame (sy_run frame s hs) (fold_left (astep None) hs a).
  Proof.
    induction 1 as [|h hs N F IH]; intros s a S; [exact S|]. cbn [sy_run fold_left]. apply IH. apply fixed; assumption.
  Qed.
  Lemma after_turn s a : sim ip ch s0 frame s a ->
    exists x, sim ip ch s0 frame (sy_step frame s Turn) (astep x a Turn).
  Proof. intros S. destruct (sim_step_taken ip ch s0 frame s a Turn Hch F0 sd S (meaningful_takes s0 frame a Turn Mf)) as (x & _ & S1). exists x. exact S1. Qed.

  Lemma message_course lag f s a : sim ip ch s0 frame s a -> rest_abs lag a -> f <> From_bus ->
    exists x, sim ip ch s0 frame (sy_run frame s (course f)) (match x with Some cemi => settled lag f cemi a | None => a end).
  Proof.
    intros S (D & U & K & L) N. destruct (after_turn s a S) as (x & S1).
    assert (T : exists hs, course f = Turn :: hs /\ Forall (fun h => h <> Turn) hs)
      by (destruct f; [..|congruence]; (eexists; split; [reflexivity|]; repeat constructor; discriminate)).
    destruct T as (hs & E & Fh). pose proof (fixed_run hs Fh _ _ S1) as S2.
    replace (sy_run frame s (course f)) with (sy_run frame (sy_step frame s Turn) hs) by (rewrite E; reflexivity).
    destruct a as [g r k l dn up dl wr bp]. cbn [a_down a_up a_k a_g a_r a_l a_dlv a_wr a_bp] in D, U, K, L. subst dn up.
    assert (J : match x with Some (Some _, _) => True | _ => fold_left (astep None) hs (astep x (mkabs g r k l [] [] dl wr bp) Turn) = mkabs g r k l [] [] dl wr bp end).
    { destruct x as [[[cemi|] d]|]; [exact I| |]; destruct f; try congruence; injection E as <-;
        cbn [fold_left astep items_of app again lose firstn skipn a_down a_up a_k a_g a_r a_l a_dlv a_wr a_bp]; rewrite ?app_nil_r; reflexivity. }
    destruct x as [[[cemi|] d]|]; [|exists None; rewrite J in S2; exact S2|exists None; rewrite J in S2; exact S2].
    exists (Some cemi). clear J.
    assert (Q : fold_left (astep None) hs (astep (Some (Some cemi, d)) (mkabs g r k l [] [] dl wr bp) Turn) = settled lag f cemi (mkabs g r k l [] [] dl wr bp)).
    { clear S S1 S2.
      assert (T0 : astep (Some (Some cemi, d)) (mkabs g r k l [] [] dl wr bp) Turn =
        mkabs g r k l [] [UReq (length wr) l cemi] dl (wr ++ [(l, cemi)]) bp) by reflexivity.
      rewrite T0. clear T0. unfold settled. destruct f; try congruence; injection E as <-; destruct lag; cbn [negb andb confirmed fold_left a_down a_up a_k a_g a_r a_l a_dlv a_wr a_bp].
      1: rewrite up_old by lia. 2: rewrite up_new by lia. 5: rewrite up_old by lia. 6: rewrite up_new by lia.
      1,2: cbn [app]; rewrite down_yes by lia; rewrite ?app_nil_r; reflexivity.
      1,2: rewrite ?app_nil_r; reflexivity.
      1,2: rewrite ?app_nil_r; reflexivity.
      all: rewrite up_again.
      1: rewrite up_old, up_old by lia. 2: rewrite up_new, up_old by lia.
      all: cbn [app]; rewrite down_yes, down_no by lia; rewrite ?app_nil_r; reflexivity. }
    rewrite Q in S2. exact S2.
  Qed.
  Lemma bus_course s a : sim ip ch s0 frame s a -> a_down a = [] -> a_up a = [] -> a_k a = a_g a ->
    sim ip ch s0 frame (sy_run frame s (course From_bus))
      (mkabs (a_g a + 1) (a_r a) (a_k a + 1) (a_l a) [] [] (a_dlv a ++ [a_g a]) (a_wr a) (a_bp a)).
  Proof. intros S D U K. apply (round_down ip ch s0 frame s a Hch F0 sd S D U K). apply Mf. Qed.

  Lemma settled_rest lag f cemi a : rest_abs lag a -> f <> From_bus -> rest_abs (lags_after lag f) (settled lag f cemi a).
  Proof.
    intros (D & U & K & L) N. destruct f; try congruence; unfold rest_abs, settled; cbn [lags_after confirmed a_down a_up a_k a_g a_r a_l];
      (split; [reflexivity|]); (split; [reflexivity|]); (split; [exact K|]); destruct lag; cbn [negb andb]; lia.
  Qed.
  Lemma settled_bus lag f cemi a : Forall (fun p => (p < length (a_wr a))%nat) (a_bp a) ->
    map (frame_at (a_wr (settled lag f cemi a))) (a_bp (settled lag f cemi a)) =
    map (frame_at (a_wr a)) (a_bp a) ++ (if lag then [] else match f with Ask_lost => [] | _ => [cemi] end).
  Proof.
    intros B. unfold settled. cbn [a_wr a_bp]. rewrite map_app. f_equal.
    - apply map_ext_in. intros p Ip. apply frame_at_app. rewrite Forall_forall in B. auto.
    - destruct lag, f; cbn [negb andb map]; try reflexivity; unfold frame_at; rewrite app_nth2, Nat.sub_diag by lia; reflexivity.
  Qed.
  Lemma run_app s h1 h2 : sy_run frame s (h1 ++ h2) = sy_run frame (sy_run frame s h1) h2.
  Proof. apply fold_left_app. Qed.
  (** A message or nothing is written in each course. *)
  Lemma at_most fs : forall lag s a, sim ip ch s0 frame s a -> rest_abs lag a ->
    exists ws, written (sy_run frame s (courses fs)) = written s ++ ws /\ (length ws <= length (filter of_message fs))%nat.
  Proof.
    induction fs as [|f fs IH]; intros lag s a S R.
    - exists []. split; [symmetry; apply app_nil_r|cbn; lia].
    - cbn [courses flat_map]. rewrite run_app. fold (courses fs).
      assert (N : f = From_bus \/ f <> From_bus) by (destruct f; auto; right; discriminate). destruct N as [->|N].
      + destruct R as (D & U & K & L). pose proof (bus_course s a S D U K) as S1.
        destruct (IH lag _ _ S1) as (ws & E & H); [unfold rest_abs; cbn [a_down a_up a_k a_g a_r a_l]; repeat split; try assumption; lia|].
        exists ws. rewrite E. rewrite (m_wr _ _ _ _ _ _ S1), (m_wr _ _ _ _ _ _ S). split; [reflexivity|exact H].
      + destruct (message_course lag f s a S R N) as ([cemi|] & S1).
        * destruct (IH _ _ _ S1 (settled_rest lag f cemi a R N)) as (ws & E & H). exists (cemi :: ws).
          rewrite E, (m_wr _ _ _ _ _ _ S1), (m_wr _ _ _ _ _ _ S). unfold settled. cbn [a_wr]. rewrite map_app, <- app_assoc. split; [reflexivity|].
          destruct f; try congruence; cbn [filter of_message length]; lia.
        * destruct (IH _ _ _ S1 R) as (ws & E & H). exists ws.
          rewrite E, (m_wr _ _ _ _ _ _ S1), (m_wr _ _ _ _ _ _ S). split; [reflexivity|].
          destruct f; try congruence; cbn [filter of_message length]; lia.
  Qed.
  Lemma count_cons p f fs : count p (f :: fs) = (if p f then 1 else 0) + count p fs.
  Proof. unfold count. cbn [filter]. destruct (p f); cbn [length]; lia. Qed.
  Lemma all_courses fs : forall lag s a messages, sim ip ch s0 frame s a -> rest_abs lag a ->
    written (sy_run frame s (courses fs)) = written s ++ messages -> length messages = length (filter of_message fs) ->
    exists a', sim ip ch s0 frame (sy_run frame s (courses fs)) a' /\ rest_abs (fold_left lags_after fs lag) a' /\
      gw_bus (sy_gw (sy_run frame s (courses fs))) = gw_bus (sy_gw s) ++ arriving lag fs messages /\
      a_g a' = a_g a + count of_bus fs /\ a_l a' = a_l a + count confirmed fs.
  Proof.
    induction fs as [|f fs IH]; intros lag s a messages S R W Len.
    - exists a. split; [exact S|]. split; [exact R|]. split; [symmetry; apply app_nil_r|]. unfold count. cbn. lia.
    - cbn [courses flat_map] in *. rewrite run_app in *. fold (courses fs) in *. rewrite !count_cons. cbn [fold_left].
      assert (N : f = From_bus \/ f <> From_bus) by (destruct f; auto; right; discriminate). destruct N as [->|N].
      + destruct R as (D & U & K & L). pose proof (bus_course s a S D U K) as S1.
        assert (R1 : rest_abs lag (mkabs (a_g a + 1) (a_r a) (a_k a + 1) (a_l a) [] [] (a_dlv a ++ [a_g a]) (a_wr a) (a_bp a)))
          by (unfold rest_abs; cbn [a_down a_up a_k a_g a_r a_l]; repeat split; try assumption; lia).
        destruct (IH lag _ _ messages S1 R1) as (a' & S' & R' & B & G & C).
        { rewrite W, (m_wr _ _ _ _ _ _ S1), (m_wr _ _ _ _ _ _ S). reflexivity. }
        { exact Len. }
        exists a'. split; [exact S'|]. split; [exact R'|]. split.
        * rewrite B, (m_bus _ _ _ _ _ _ S1), (m_bus _ _ _ _ _ _ S). reflexivity.
        * cbn [a_g a_l of_bus confirmed] in *. lia.
      + destruct (message_course lag f s a S R N) as ([cemi|] & S1).
        * pose proof (settled_rest lag f cemi a R N) as R1.
          assert (Lm : length (filter of_message (f :: fs)) = (1 + length (filter of_message fs))%nat) by (destruct f; try congruence; reflexivity).
          destruct (at_most fs _ _ _ S1 R1) as (ws & E & _).
          rewrite E, (m_wr _ _ _ _ _ _ S1), (m_wr _ _ _ _ _ _ S) in W. unfold settled in W. cbn [a_wr] in W.
          rewrite map_app, <- app_assoc in W. apply app_inv_head in W. cbn [map app snd] in W. subst messages.
          destruct (IH _ _ _ ws S1 R1 E) as (a' & S' & R' & B & G & C); [rewrite Lm in Len; cbn [length] in Len; lia|].
          exists a'. split; [exact S'|]. split; [exact R'|]. split.
          { rewrite B, (m_bus _ _ _ _ _ _ S1), (m_bus _ _ _ _ _ _ S), (settled_bus lag f cemi a (m_bp _ _ _ _ _ _ S)), <- app_assoc.
            f_equal. destruct f; try congruence; reflexivity. }
          { unfold settled in G, C. cbn [a_g a_l] in G, C. destruct f; try congruence; cbn [of_bus confirmed] in *; lia. }
        * exfalso. destruct (at_most fs _ _ _ S1 R) as (ws & E & H).
          rewrite E, (m_wr _ _ _ _ _ _ S1), (m_wr _ _ _ _ _ _ S) in W. apply app_inv_head in W. subst ws.
          destruct f; try congruence; cbn [filter of_message length] in Len; lia.
  Qed.
End Rounds.

(** ** What arrives *)
Lemma arriving_fine n : forall messages, length messages = n -> arriving false (repeat Fine n) messages = messages.
Proof.
  induction n as [|n IH]; intros [|m q] L; try discriminate L; [reflexivity|]. cbn. rewrite IH by (cbn in L; lia). reflexivity.
Qed.
Lemma arriving_app_fine n : forall fs l1 l2, length l1 = n -> arriving false (repeat Fine n ++ fs) (l1 ++ l2) = l1 ++ arriving false fs l2.
Proof.
  induction n as [|n IH]; intros fs [|m q] l2 L; try discriminate L; [reflexivity|]. cbn. rewrite IH by (cbn in L; lia). reflexivity.
Qed.
Lemma arriving_filter : forall fs lag messages, arriving lag fs messages = arriving lag (filter of_message fs) messages.
Proof.
  induction fs as [|f fs IH]; intros lag messages; [reflexivity|].
  destruct f; cbn [filter of_message arriving]; try (destruct messages; [reflexivity|]); rewrite IH; reflexivity.
Qed.
