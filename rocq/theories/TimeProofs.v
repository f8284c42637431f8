(** Proofs for C87. *)
From Coq Require Import String Ascii ZArith List Bool Lia ZifyBool.
From Verif Require Import Py Base Msg Address Dpt Tables LData Inet State Encode Decode Client ClientTime.
From Verif Require Import SpecMsg SpecTables SpecWire SpecDecode SpecClient SpecSystem SpecTime.
From Verif Require Import ClientProofs DeliveryProofs SystemProofs AcrossProofs SendsProofs.
Import ListNotations.
Open Scope Z_scope.

(** ** Queues and their times *)
Lemma again_combine {A B} n : forall (l : list A) (k : list B), combine (again n l) (again n k) = again n (combine l k).
Proof.
  induction n as [|n IH]; intros [|x l] [|y k]; unfold again; cbn; try reflexivity.
  f_equal. apply IH.
Qed.
Lemma again_length {A} n (l : list A) : length (again n l) = (length l + (if Nat.ltb n (length l) then 1 else 0))%nat.
Proof.
  unfold again. rewrite !app_length. rewrite <- (firstn_skipn n l) at 4. rewrite app_length.
  assert (length (firstn 1 (skipn n l)) = if Nat.ltb n (length l) then 1%nat else 0%nat) as ->; [|lia].
  destruct (Nat.ltb_spec n (length l)).
  - rewrite firstn_length, skipn_length. lia.
  - rewrite skipn_all2 by lia. reflexivity.
Qed.
Lemma again_in {A} n (l : list A) x : In x l -> In x (again n l).
Proof.
  intros H. unfold again. rewrite <- (firstn_skipn n l) in H. apply in_app_or in H. destruct H as [H|H]; apply in_or_app; [left; exact H|right].
  apply in_or_app. right. exact H.
Qed.
Lemma combine_app {A B} (a a' : list A) (b b' : list B) : length a = length b -> combine (a ++ a') (b ++ b') = combine a b ++ combine a' b'.
Proof. revert b. induction a as [|x a IH]; intros [|y b] E; cbn in *; try discriminate E; [reflexivity|]. f_equal. apply IH. lia. Qed.
Lemma filled_eq t since l k : length l = (length since + k)%nat -> filled t since l = since ++ repeat t k.
Proof. intros E. unfold filled. replace (length l - length since)%nat with k by lia. reflexivity. Qed.
Lemma in_stamp {A} (l : list A) (since : list Z) x t : In (x, t) (combine l since) -> In t since.
Proof. apply in_combine_r. Qed.

(** ** The writer in the system *)
Lemma turned_sends c : snd (turned c) <> [] -> exists l, fst (turned c) = WSend l.
Proof.
  assert (X : forall l, snd (turn c l) <> [] -> exists l', fst (turn c l) = WSend l').
  { intros [|m l] N; cbn [turn] in *; [contradiction N; reflexivity|]. destruct (message_repr m); [|contradiction N; reflexivity].
    destruct (fst (encode_msg m (c_state c))); [|contradiction N; reflexivity]. destruct (c_transport c); [exists l; reflexivity|contradiction N; reflexivity]. }
  unfold turned. destruct (c_writer c); auto; [|intros N; contradiction N; reflexivity|intros N; contradiction N; reflexivity].
  destruct (c_connected c); auto. intros N. contradiction N. reflexivity.
Qed.
Lemma sim_writer ip ch s0 frame s a h : sendable frame -> sim ip ch s0 frame s a ->
  c_writer (sy_client (sy_step frame s h)) = match h with Turn => fst (turned (sy_client s)) | _ => c_writer (sy_client s) end.
Proof.
  intros Mf S. destruct h; cbn [sy_step]; try reflexivity.
  - destruct (sy_down s) as [|d r] eqn:Ed; [reflexivity|]. unfold sy_client_event.
    assert (Al : allowed (sy_client s) (EvData d)).
    { split; [exact (m_trans _ _ _ _ _ _ S)|]. pose proof (m_down _ _ _ _ _ _ S) as Md. rewrite Ed in Md. destruct (a_down a) as [|[i|j] q]; try discriminate Md;
      apply (f_equal (hd [])) in Md; cbn [hd map down_dgram] in Md; subst d; [apply request_octets; apply Mf|apply ack_octets]. }
    pose proof (f_writer _ _ _ _ _ (step_facts ip _ _ (m_good _ _ _ _ _ _ S) Al)) as X. cbn beta iota in X.
    destruct (client_step (sy_client s) (EvData d)) as [c1 o]. exact X.
  - destruct (sy_up s) as [|d r]; [reflexivity|]. destruct (gw_receive (sy_gw s) d) as [g l]. reflexivity.
  - unfold sy_client_event. pose proof (f_writer _ _ _ _ _ (step_facts ip _ EvWriter (m_good _ _ _ _ _ _ S) I)) as X. cbn beta iota in X.
    destruct (client_step (sy_client s) EvWriter) as [c1 o]. exact X.
Qed.
Lemma sim_turn_up ip ch s0 frame s a : sim ip ch s0 frame s a -> sy_up (sy_step frame s Turn) = sy_up s ++ snd (turned (sy_client s)).
Proof.
  intros S. cbn [sy_step]. unfold sy_client_event. destruct (step_writer ip _ (m_good _ _ _ _ _ _ S)) as (s1 & _ & ->). reflexivity.
Qed.

(** ** Everything is acknowledged before the writer wakes up *)
Section Timed.
Variables (ip : list Z) (ch : Z) (s0 : state) (frame : Z -> list Z) (d first w0 : Z).
Hypotheses (Hd2 : 2 * d < 3000) (Hf : -1 <= first).
Hypotheses (Hch : 0 <= ch < 256) (F0 : fits s0) (Mf : sendable frame).

Definition waiting (x : timed) (a : abs) : Prop :=
  (exists p cemi t, In (UReq p (a_l a) cemi, t) (combine (a_up a) (ti_up x)) /\ t + 3000 <= ti_wake x) \/
  (exists t, In (DAck (a_l a), t) (combine (a_down a) (ti_down x)) /\ t + 3000 <= ti_wake x + d).
Record tinv (x : timed) (a : abs) : Prop := {
  q_sim : sim ip ch s0 frame (ti_sys x) a;
  q_pinv : pinv first a;
  q_up : length (ti_up x) = length (a_up a);
  q_down : length (ti_down x) = length (a_down a);
  q_ack : a_l a = first + zlen (a_wr a) \/ c_writer (sy_client (ti_sys x)) <> WStopped /\ waiting x a;
  q_wake : w0 + 3000 * zlen (a_wr a) <= ti_wake x;
  q_stop : c_writer (sy_client (ti_sys x)) = WStopped -> w0 + 3000 * zlen (a_wr a) <= ti_now x;
  q_now : w0 + 3000 * (zlen (a_wr a) - 1) <= ti_now x
}.

Lemma tinv_turn x a t : tinv x a -> can_happen d x (t, Turn) -> a_l a = first + zlen (a_wr a).
Proof.
  intros [] (_ & P & W). destruct q_ack0 as [E|(_ & [(p & cemi & since & I & L)|(since & I & L)])]; [exact E| |].
  - apply in_stamp in I. specialize (P since (in_or_app _ _ _ (or_introl I))). lia.
  - apply in_stamp in I. specialize (P since (in_or_app _ _ _ (or_intror I))). lia.
Qed.

Definition kept_up {A} (h : happening) (l : list A) : list A :=
  match h with Arrive_up => tl l | Repeat_up n => again n l | _ => l end.
Definition kept_down {A} (h : happening) (l : list A) : list A :=
  match h with Arrive_down => tl l | Repeat_down n => again n l | _ => l end.
Definition lossless (h : happening) : Prop := match h with Lose_up _ | Lose_down _ => False | _ => True end.
Lemma kept_new y a h h' : lossless h -> h' = h \/ h = Arrive_down /\ h' = Lose_down 0 ->
  exists nu nd, a_up (astep y a h') = kept_up h (a_up a) ++ nu /\ a_down (astep y a h') = kept_down h (a_down a) ++ nd.
Proof.
  intros L [->|[-> ->]].
  - destruct h as [| | | |n|n|n|n]; try contradiction; unfold astep, kept_up, kept_down; cbn [a_up a_down].
    + exists [], [DReq (a_g a)]. rewrite app_nil_r. auto.
    + destruct (a_down a) as [|[i|j] q] eqn:E.
      * exists [], []. rewrite E, !app_nil_r. auto.
      * split_if; [|split_if]; cbn [a_up a_down tl]; eexists; exists []; (split; [|symmetry; apply app_nil_r]); try reflexivity. symmetry. apply app_nil_r.
      * exists [], []. rewrite !app_nil_r. auto.
    + destruct (a_up a) as [|[p j cemi|v|u] q] eqn:E.
      * exists [], []. rewrite E, !app_nil_r. auto.
      * split_if; [|split_if]; cbn [a_up a_down tl]; exists []; eexists; (split; [symmetry; apply app_nil_r|]); try reflexivity. symmetry. apply app_nil_r.
      * exists [], []. rewrite !app_nil_r. auto.
      * exists [], []. rewrite !app_nil_r. auto.
    + eexists. exists []. split; [reflexivity|symmetry; apply app_nil_r].
    + exists [], []. rewrite !app_nil_r. auto.
    + exists [], []. rewrite !app_nil_r. auto.
  - exists [], []. unfold astep, kept_up, kept_down. cbn [a_up a_down]. rewrite !app_nil_r. split; [reflexivity|]. destruct (a_down a); reflexivity.
Qed.
Lemma kept_up_length {A B} h (l : list A) (k : list B) : length l = length k -> length (kept_up h l) = length (kept_up h k).
Proof. intros E. destruct h; cbn; try assumption; [destruct l, k; cbn in *; lia|]. rewrite !again_length, E. reflexivity. Qed.
Lemma kept_down_length {A B} h (l : list A) (k : list B) : length l = length k -> length (kept_down h l) = length (kept_down h k).
Proof. intros E. destruct h; cbn; try assumption; [destruct l, k; cbn in *; lia|]. rewrite !again_length, E. reflexivity. Qed.
Lemma kept_up_in {A B} h (l : list A) (k : list B) z : length l = length k -> In z (combine l k) ->
  In z (combine (kept_up h l) (kept_up h k)) \/ h = Arrive_up /\ Some z = hd_error (combine l k).
Proof.
  intros E I. destruct h; cbn; auto.
  - destruct l as [|x l], k as [|y k]; try discriminate E; [destruct I|]. destruct I as [<-|I]; [right; split; reflexivity|left; exact I].
  - left. rewrite again_combine. apply again_in. exact I.
Qed.
Lemma kept_down_in {A B} h (l : list A) (k : list B) z : length l = length k -> In z (combine l k) ->
  In z (combine (kept_down h l) (kept_down h k)) \/ h = Arrive_down /\ Some z = hd_error (combine l k).
Proof.
  intros E I. destruct h; cbn; auto.
  - destruct l as [|x l], k as [|y k]; try discriminate E; [destruct I|]. destruct I as [<-|I]; [right; split; reflexivity|left; exact I].
  - left. rewrite again_combine. apply again_in. exact I.
Qed.
Lemma stamps {A} (items kept : list A) new since t (q : list (list Z)) : items = kept ++ new -> length q = length items -> length since = length kept ->
  length (filled t since q) = length items /\ combine items (filled t since q) = combine kept since ++ combine new (repeat t (length new)).
Proof.
  intros -> Lq Ls. rewrite app_length in Lq. rewrite (filled_eq t since q (length new)) by lia. rewrite !app_length, repeat_length. split; [lia|].
  apply combine_app. lia.
Qed.
Lemma stamps_fresh {A} (x : A) new (t : Z) : In x new -> In (x, t) (combine new (repeat t (length new))).
Proof. induction new as [|y new IH]; intros I; [destruct I|]. cbn. destruct I as [->|I]; auto. Qed.

Lemma sim_step_down s a h : sim ip ch s0 frame s a ->
  exists y h', legal y /\ (h' = h \/ h = Arrive_down /\ h' = Lose_down 0 /\ exists i q, a_down a = DReq i :: q) /\
  sim ip ch s0 frame (sy_step frame s h) (astep y a h').
Proof.
  intros S. destruct (a_down a) as [|[i|j] q] eqn:E.
  - destruct (sim_step_taken ip ch s0 frame s a h Hch F0 Mf S) as (y & Ly & S1); [intros _ i q X; congruence|]. exists y, h. auto.
  - destruct (sim_step ip ch s0 frame s a h Hch F0 Mf S) as (y & h' & Ly & Eh & S1). exists y, h'. split; [exact Ly|]. split; [|exact S1].
    destruct Eh as [[X _]|[X Y]]; [auto|]. right. split; [exact X|]. split; [exact Y|]. eauto.
  - destruct (sim_step_taken ip ch s0 frame s a h Hch F0 Mf S) as (y & Ly & S1); [intros _ i q' X; congruence|]. exists y, h. auto.
Qed.
Lemma step_counts y a h : h <> Turn -> a_wr (astep y a h) = a_wr a /\ a_l a <= a_l (astep y a h) <= a_l a + 1.
Proof.
  intros N. destruct h; try congruence; unfold astep; cbn [a_wr a_l]; try (split; [reflexivity|lia]).
  - destruct (a_down a) as [|[i|j] q]; [split; [reflexivity|lia]| |].
    + split_if; [|split_if]; (split; [reflexivity|cbn; lia]).
    + split; [reflexivity|]. cbn. split_if; lia.
  - destruct (a_up a) as [|[p j c|v|u] q]; [split; [reflexivity|lia]| | |]; try (split; [reflexivity|cbn; lia]).
    split_if; [|split_if]; (split; [reflexivity|cbn; lia]).
Qed.
Lemma tinv_step x a t h : tinv x a -> can_happen d x (t, h) -> exists a', tinv (ti_step frame x (t, h)) a'.
Proof.
  intros T C. pose proof T as []. pose proof C as (Now & P & Ch).
  destruct (sim_step_down (ti_sys x) a h q_sim0) as (y & h' & Ly & Eh & S1).
  assert (Eh' : h' = h \/ h = Arrive_down /\ h' = Lose_down 0) by (destruct Eh as [E|(E & E' & _)]; auto).
  assert (Lo : lossless h) by (destruct h; exact I || exact Ch).
  assert (Tn : h = Turn -> a_l a = first + zlen (a_wr a)) by (intros ->; exact (tinv_turn x a t T C)).
  destruct (kept_new y a h h' Lo Eh') as (nu & nd & Eu & Ed).
  assert (Lu : length (sy_up (sy_step frame (ti_sys x) h)) = length (a_up (astep y a h'))) by (rewrite (m_up _ _ _ _ _ _ S1); apply map_length).
  assert (Ld : length (sy_down (sy_step frame (ti_sys x) h)) = length (a_down (astep y a h'))) by (rewrite (m_down _ _ _ _ _ _ S1); apply map_length).
  destruct (stamps _ _ _ (kept_up h (ti_up x)) t _ Eu Lu (kept_up_length h _ _ q_up0)) as [Ku Cu].
  destruct (stamps _ _ _ (kept_down h (ti_down x)) t _ Ed Ld (kept_down_length h _ _ q_down0)) as [Kd Cd].
  assert (Pi : pinv first (astep y a h')).
  { apply pinv_step; [exact Hf| |exact q_pinv0]. intros ->. destruct Eh' as [<-|[_ E]]; [|discriminate E]. rewrite (Tn eq_refl). reflexivity. }
  assert (D : h = Turn \/ h <> Turn) by (destruct h; auto; right; discriminate).
  assert (Nt' : h <> Turn -> h' <> Turn) by (intros Nt; destruct Eh' as [->|[_ ->]]; [exact Nt|discriminate]).
  assert (Tw : h = Turn -> (exists cemi, a_wr (astep y a h') = a_wr a ++ [(a_l a, cemi)] /\ exists l, fst (turned (sy_client (ti_sys x))) = WSend l /\
                In (UReq (length (a_wr a)) (a_l (astep y a h')) cemi) nu) \/
              a_wr (astep y a h') = a_wr a /\ a_l (astep y a h') = a_l a).
  { intros ->. destruct Eh' as [->|[E _]]; [|discriminate E].
    pose proof (sim_turn_up _ _ _ _ _ _ q_sim0) as Up. apply (f_equal (@length _)) in Up. rewrite Lu, app_length in Up.
    rewrite (m_up _ _ _ _ _ _ q_sim0), map_length, Eu, app_length in Up. cbn [kept_up] in Up, Eu.
    unfold astep in Eu. cbn [a_up] in Eu. apply app_inv_head in Eu. subst nu.
    unfold astep. cbn [a_l a_wr]. destruct y as [[[cemi|] z]|]; [|right; rewrite app_nil_r; auto..].
    left. exists cemi. split; [reflexivity|].
    cbn [items_of length] in Up. destruct (turned_sends (sy_client (ti_sys x))) as (l & El); [intros E; rewrite E in Up; cbn in Up; lia|].
    exists l. split; [exact El|left; reflexivity]. }
  assert (Kw : ti_wake (ti_step frame x (t, h)) = match h with Turn => t + pause (fst (turned (sy_client (ti_sys x)))) | _ => ti_wake x end).
  { cbn [ti_step ti_wake]. rewrite (sim_writer ip ch s0 frame _ _ h Mf q_sim0). destruct h; reflexivity. }
  exists (astep y a h'). constructor.
  - exact S1.
  - exact Pi.
  - exact Ku.
  - exact Kd.
  - unfold waiting. change (ti_up (ti_step frame x (t, h))) with (filled t (kept_up h (ti_up x)) (sy_up (sy_step frame (ti_sys x) h))).
    change (ti_down (ti_step frame x (t, h))) with (filled t (kept_down h (ti_down x)) (sy_down (sy_step frame (ti_sys x) h))).
    rewrite Cu, Cd. change (ti_sys (ti_step frame x (t, h))) with (sy_step frame (ti_sys x) h).
    rewrite Kw.
    rewrite (sim_writer ip ch s0 frame _ _ h Mf q_sim0).
    destruct D as [->|Nt].
    + specialize (Tn eq_refl). destruct (Tw eq_refl) as [(cemi & Ew & l & El & In1)|(Ew & El)]; [|left; rewrite Ew, El; exact Tn].
      rewrite El. right. split; [discriminate|]. left. exists (length (a_wr a)), cemi, t. split; [|cbn; lia].
      apply in_or_app. right. apply stamps_fresh. exact In1.
    + specialize (Nt' Nt).
      destruct (step_counts y a h' Nt') as [Ew Ll]. pose proof (p_len _ _ Pi) as Pl. rewrite Ew in *.
      destruct (Z.eq_dec (a_l (astep y a h')) (first + zlen (a_wr a))) as [|Nl]; [left; assumption|]. right.
      pose proof (p_len _ _ q_pinv0) as Pl0. destruct q_ack0 as [E|(Nw & Wt)]; [lia|].
      assert (El : a_l (astep y a h') = a_l a) by lia. rewrite El.
      split; [destruct h; assumption || congruence|].
      assert (Wk : ti_wake x = match h with Turn => t + pause (fst (turned (sy_client (ti_sys x)))) | _ => ti_wake x end) by (destruct h; reflexivity || congruence).
      rewrite <- Wk. destruct Wt as [(p & cemi & since & Iu & Lw)|(since & Id & Lw)].
      * destruct (kept_up_in h _ _ _ (eq_sym q_up0) Iu) as [K|[-> Hh]].
        { left. exists p, cemi, since. split; [apply in_or_app; left; exact K|exact Lw]. }
        right. destruct Eh' as [->|[E _]]; [|discriminate E].
        exists t. specialize (P since (in_or_app _ _ _ (or_introl (in_stamp _ _ _ _ Iu)))). split; [|lia].
        apply in_or_app. right. apply stamps_fresh.
        destruct (a_up a) as [|u q] eqn:Ea; [discriminate Hh|]. destruct (ti_up x) as [|v vs]; [discriminate Hh|].
        cbn in Hh. injection Hh as <- <-. pose proof (p_outb _ _ q_pinv0) as []. rewrite Ea in b_ureq.
        pose proof (Forall_inv b_ureq) as (B & _).
        unfold astep in Ed, El. rewrite Ea in Ed, El. cbn [kept_down] in Ed.
        destruct (a_l a mod 256 =? a_r a mod 256) eqn:E1; cbn [a_down] in Ed; [apply app_inv_head in Ed; subst nd; left; f_equal; lia|].
        replace (a_l a mod 256 =? (a_r a - 1) mod 256) with true in Ed by lia. cbn [a_down] in Ed.
        apply app_inv_head in Ed. subst nd. left. f_equal. lia.
      * destruct (kept_down_in h _ _ _ (eq_sym q_down0) Id) as [K|[-> Hh]].
        { right. exists since. split; [apply in_or_app; left; exact K|exact Lw]. }
        exfalso. destruct (a_down a) as [|u q] eqn:Ea; [discriminate Hh|]. destruct (ti_down x) as [|v vs]; [discriminate Hh|].
        cbn in Hh. injection Hh as <- <-. destruct Eh as [->|(_ & _ & i & q' & X)]; [|discriminate X].
        unfold astep in El. rewrite Ea, Z.eqb_refl in El. cbn in El. lia.
  - rewrite Kw. destruct D as [->|Nt].
    + destruct (Tw eq_refl) as [(cemi & -> & l & -> & _)|(-> & _)]; [rewrite zlen_app'; cbn; lia|].
      destruct (fst (turned (sy_client (ti_sys x)))); cbn; lia.
    + rewrite (proj1 (step_counts y a h' (Nt' Nt))). destruct h; assumption || congruence.
  - change (ti_sys (ti_step frame x (t, h))) with (sy_step frame (ti_sys x) h). rewrite (sim_writer ip ch s0 frame _ _ h Mf q_sim0).
    change (ti_now (ti_step frame x (t, h))) with t. destruct D as [->|Nt].
    + intros E. destruct (Tw eq_refl) as [(cemi & _ & l & X & _)|(-> & _)]; [congruence|lia].
    + rewrite (proj1 (step_counts y a h' (Nt' Nt))). intros E.
      assert (E' : c_writer (sy_client (ti_sys x)) = WStopped) by (destruct h; assumption || congruence). specialize (q_stop0 E'). lia.
  - change (ti_now (ti_step frame x (t, h))) with t. destruct D as [->|Nt].
    + destruct (Tw eq_refl) as [(cemi & -> & _)|(-> & _)]; [rewrite zlen_app'; cbn; lia|lia].
    + rewrite (proj1 (step_counts y a h' (Nt' Nt))). lia.
Qed.

Lemma tinv_run es : forall x a, tinv x a -> timely d frame x es ->
  (exists a', tinv (ti_run frame x es) a') /\ paced frame first (ti_sys x) (map snd es).
Proof.
  induction es as [|[t h] es IH]; intros x a T P; [split; [exists a; exact T|exact I]|]. destruct P as [P1 P2].
  destruct (tinv_step x a t h T P1) as (a1 & T1). destruct (IH _ a1 T1 P2) as (X & Y). split; [exact X|]. cbn [map snd paced]. split; [|exact Y].
  intros ->. pose proof (tinv_turn x a t T P1) as E. destruct T. rewrite (m_l _ _ _ _ _ _ q_sim0), (m_wr _ _ _ _ _ _ q_sim0), E. unfold zlen. rewrite map_length. reflexivity.
Qed.
Lemma ti_run_sys es : forall x, ti_sys (ti_run frame x es) = sy_run frame (ti_sys x) (map snd es).
Proof. induction es as [|[t h] es IH]; intros x; [reflexivity|]. cbn [ti_run map snd sy_run fold_left]. apply IH. Qed.
End Timed.

Lemma ti_linked ip c0 msgs es0 ch frame d t0 es : linked ip c0 msgs es0 ch -> sendable frame ->
  st_local (c_state (after c0 es0)) = 0 -> 2 * d < 3000 -> timely d frame (ti_start (after c0 es0) ch t0) es ->
  (exists a, tinv ip ch (c_state c0) frame d 0 t0 (ti_run frame (ti_start (after c0 es0) ch t0) es) a) /\
  paced frame 0 (sy_start (after c0 es0) ch) (map snd es).
Proof.
  intros L Mf El Hd2 P. destruct (sim_start ip c0 msgs es0 ch frame 0 L El) as (S & F & Hch).
  apply (tinv_run ip ch (c_state c0) frame d 0 t0 Hd2 ltac:(lia) Hch F Mf es (ti_start (after c0 es0) ch t0) (mkabs 0 0 0 0 [] [] [] [] [])); [|exact P].
  constructor; try reflexivity; [exact S| |left; reflexivity|cbn; lia|cbn; lia|cbn; lia].
  constructor; [apply outb_start; lia|reflexivity|cbn; lia|cbn; lia|constructor].
Qed.

(** Messages written are in order, and all of them have been when it stops. *)
Lemma link_tunnelled m s b : st_medium s = Knxnet_ip -> link_request m = true -> fst (encode_msg m s) = Ok b -> exists n f, tunnelled b = Some (n, f).
Proof.
  intros Md L E. destruct (link_encoded m s b Md L E) as (ch & cemi & _ & ->). rewrite request_tunnelled. eauto.
Qed.
Lemma stopped_written ip c0 msgs es0 es : well_made ip c0 msgs -> orderly false (es0 ++ es) ->
  Forall (fun m => link_request m = true) msgs -> writer_sent (trace c0 es0) = [] ->
  c_writer (after c0 (es0 ++ es)) = WStopped ->
  Forall2 (frame_of (c_state c0)) msgs
    (flat_map (fun d => match tunnelled d with Some (_, cemi) => [cemi] | None => [] end) (writer_sent (trace (after c0 es0) es))).
Proof.
  intros W O2 Lk Ws St. destruct (well_made_start ip c0 msgs W) as (Gd & T0 & _ & Wr & _).
  pose proof O2 as O3. rewrite <- T0 in O3.
  destruct (writer_history ip c0 (es0 ++ es) msgs Gd Wr O3) as (dn & rest & E & F2 & X).
  rewrite St in X. subst rest. rewrite app_nil_r in E. subst dn.
  rewrite trace_app in F2. unfold writer_sent in F2. rewrite flat_map_app in F2.
  fold (writer_sent (trace c0 es0)) in F2. fold (writer_sent (trace (after c0 es0) es)) in F2. rewrite Ws in F2. cbn [app] in F2.
  revert F2 Lk. generalize (writer_sent (trace (after c0 es0) es)). intros bs F2 Lk.
  assert (Hs : forall m b, sent_as c0 (es0 ++ es) m b -> link_request m = true -> exists n f, tunnelled b = Some (n, f) /\ frame_of (c_state c0) m f).
  { intros m b (es1 & es2 & Ee & Em) Lm. rewrite Ee in O2. apply orderly_app in O2. destruct O2 as [O1 _].
    pose proof (well_made_history ip c0 msgs es1 W O1) as Sd. pose proof (s_good _ _ _ _ Sd) as (_ & _ & (Md & _) & _).
    destruct (link_tunnelled m _ b Md Lm Em) as (n & f & Et). exists n, f. split; [exact Et|].
    exists (c_state (after c0 es1)), b, n. split; [exact (s_same _ _ _ _ Sd)|]. split; assumption. }
  clear - F2 Lk Hs. induction F2 as [|m b l bs H F2 IH]; [constructor|]. cbn [flat_map].
  destruct (Hs m b H (Forall_inv Lk)) as (n & f & Et & Hf). rewrite Et. cbn [app]. constructor; [exact Hf|]. apply IH. exact (Forall_inv_tail Lk).
Qed.
Lemma stopped_all ip c0 msgs es0 ch frame hs : linked ip c0 msgs es0 ch -> sendable frame ->
  Forall (fun m => link_request m = true) msgs -> writer_sent (trace c0 es0) = [] ->
  let s := sy_run frame (sy_start (after c0 es0) ch) hs in
  c_writer (sy_client s) = WStopped -> Forall2 (frame_of (c_state c0)) msgs (written s).
Proof.
  intros L Mf Lk Ws s St. pose proof L as (W & O & T & Ec & _). pose proof (local_range ip c0 msgs es0 ch L) as R.
  destruct (sim_start ip c0 msgs es0 ch frame (st_local (c_state (after c0 es0))) L ltac:(lia)) as (S & F & Hch).
  destruct (sy_history ip ch (c_state c0) frame (after c0 es0) _ hs Hch F Mf S) as (es & El & Ecl & Oe & _). fold s in El, Ecl.
  destruct (well_made_start ip c0 msgs W) as (Gd & T0 & _ & Wr & _).
  assert (O2 : orderly false (es0 ++ es)).
  { apply orderly_app. split; [exact O|]. pose proof (s_up _ _ _ _ (well_made_history ip c0 msgs es0 W O)) as U. rewrite T0 in U. rewrite <- U, T. exact Oe. }
  unfold written. rewrite El. apply (stopped_written ip c0 msgs es0 es W O2 Lk Ws). rewrite after_app, <- Ecl. exact St.
Qed.

(** ** The writer comes to its end *)
Lemma sim_connected ip ch s0 frame s a h : sendable frame -> sim ip ch s0 frame s a ->
  c_connected (sy_client s) = true -> c_connected (sy_client (sy_step frame s h)) = true.
Proof.
  intros Mf S K. destruct h; cbn [sy_step]; try exact K.
  - destruct (sy_down s) as [|d r] eqn:Ed; [exact K|]. unfold sy_client_event.
    assert (Al : allowed (sy_client s) (EvData d)).
    { split; [exact (m_trans _ _ _ _ _ _ S)|]. pose proof (m_down _ _ _ _ _ _ S) as Md. rewrite Ed in Md. destruct (a_down a) as [|[i|j] q]; try discriminate Md;
      apply (f_equal (hd [])) in Md; cbn [hd map down_dgram] in Md; subst d; [apply request_octets; apply Mf|apply ack_octets]. }
    pose proof (f_conn _ _ _ _ _ (step_facts ip _ _ (m_good _ _ _ _ _ _ S) Al)) as X. rewrite K in X.
    destruct (client_step (sy_client s) (EvData d)) as [c1 o]. exact X.
  - destruct (sy_up s) as [|d r]; [exact K|]. destruct (gw_receive (sy_gw s) d) as [g l]. exact K.
  - unfold sy_client_event. pose proof (f_conn _ _ _ _ _ (step_facts ip _ EvWriter (m_good _ _ _ _ _ _ S) I)) as X. rewrite K in X.
    destruct (client_step (sy_client s) EvWriter) as [c1 o]. exact X.
Qed.
Lemma hand_turned c l : in_hand c l -> turned c = turn c l.
Proof. intros [K [E|E]]; unfold turned; rewrite E, ?K; reflexivity. Qed.
Lemma turns_stop ip ch s0 frame hs : 0 <= ch < 256 -> fits s0 -> sendable frame ->
  forall s a l, sim ip ch s0 frame s a -> Forall (transmissible s0) l ->
  (in_hand (sy_client s) l /\ (length l < how_often hs)%nat \/ c_writer (sy_client s) = WStopped) ->
  c_writer (sy_client (sy_run frame s hs)) = WStopped.
Proof.
  intros Hch F0 Mf. induction hs as [|h hs IH]; intros s a l S Al H.
  - destruct H as [[_ H]|H]; [cbn in H; lia|exact H].
  - destruct (sim_step ip ch s0 frame s a h Hch F0 Mf S) as (y & h' & _ & _ & S1).
    pose proof (sim_writer ip ch s0 frame s a h Mf S) as W. cbn [sy_run fold_left].
    destruct H as [[Hd Ln]|St].
    + pose proof (sim_connected ip ch s0 frame s a h Mf S (proj1 Hd)) as K.
      destruct (match h with Turn => true | _ => false end) eqn:Eh.
      * destruct h; try discriminate Eh. rewrite (hand_turned _ _ Hd) in W. destruct l as [|m l].
        { apply (IH _ _ [] S1); [constructor|right; exact W]. }
        apply (IH _ _ l S1 (Forall_inv_tail Al)). left. unfold how_often in *. cbn in Ln. split; [|lia]. split; [exact K|right].
        rewrite W. cbn [turn]. destruct (Forall_inv Al) as [Dm Em].
        replace (message_repr m) with (@Ok unit tt) by (rewrite repr_displayable, Dm; reflexivity).
        destruct (Em _ (m_same _ _ _ _ _ _ S)) as [b ->]; [rewrite (m_ch _ _ _ _ _ _ S); discriminate|]. rewrite (m_trans _ _ _ _ _ _ S). reflexivity.
      * apply (IH _ _ l S1 Al). left. unfold how_often in *. cbn in Ln. rewrite Eh in Ln. split; [|exact Ln]. split; [exact K|].
        destruct Hd as [_ Hw]. rewrite W. destruct h; exact Hw || discriminate Eh.
    + apply (IH _ _ l S1 Al). right. rewrite W. destruct h; try exact St. unfold turned. rewrite St. reflexivity.
Qed.
Lemma hand_start ip c0 msgs es0 : well_made ip c0 msgs -> orderly false es0 -> answered es0 = true -> ~ In EvWriter es0 ->
  in_hand (after c0 es0) msgs.
Proof.
  intros W O An Nw. pose proof (well_made_history ip c0 msgs es0 W O) as St. destruct (well_made_start ip c0 msgs W) as (Gd & T0 & _ & Wr & _).
  split; [rewrite (s_conn _ _ _ _ St), An; apply orb_true_r|]. left.
  clear - Nw Wr Gd O T0. rewrite <- T0 in O. revert O Nw. induction es0 as [|e es IH] using rev_ind; intros O Nw; [exact Wr|].
  pose proof O as O'. apply orderly_app in O'. destruct O' as [O1 _]. pose proof (history ip c0 es Gd O1) as S.
  rewrite (other_writer ip c0 es e S (allowed_of ip c0 es e S O)).
  - apply IH; [exact O1|]. intros I. apply Nw. apply in_or_app. left. exact I.
  - intros ->. apply Nw. apply in_or_app. right. left. reflexivity.
Qed.
Lemma no_turn_nothing c es : ~ In EvWriter es -> writer_sent (trace c es) = [].
Proof.
  induction es as [|e es IH] using rev_ind; intros N; [reflexivity|]. rewrite writer_sent_snoc, IH.
  - destruct e; try reflexivity. elim N. apply in_or_app. right. left. reflexivity.
  - intros I. apply N. apply in_or_app. left. exact I.
Qed.
