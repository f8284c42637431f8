(** C96: how long the USB client stays. *)
From Coq Require Import String ZArith List Bool Lia ZifyBool.
From Verif Require Import Py Base Msg Address Dpt Tables State Encode Decode Client ClientTime.
From Verif Require Import SpecMsg SpecTables SpecWire SpecDecode SpecClient SpecStay.
From Verif Require Import ClientProofs DeliveryProofs.
From Verif Require Import Props_Decode Props_Client.
Import ListNotations.
Open Scope Z_scope.

Lemma uk_client_run : forall es x, uk_client (uk_run x es) = fst (usb_run (uk_client x) (map snd es)).
Proof.
  unfold uk_run. induction es as [|[t e] es IH]; intros x; [reflexivity|]. cbn [fold_left map usb_run snd].
  rewrite IH. cbn [uk_step uk_client snd]. destruct (usb_step (uk_client x) e) as [u1 o]. cbn [fst].
  destruct (usb_run u1 (map snd es)). reflexivity.
Qed.
Lemma uk_prompt_app late : forall a x b, uk_prompt late x (a ++ b) <-> uk_prompt late x a /\ uk_prompt late (uk_run x a) b.
Proof. induction a as [|e a IH]; intros x b; cbn [app uk_prompt]; [cbn; tauto|]. rewrite IH. cbn. tauto. Qed.
Lemma uk_run_snoc x es e : uk_run x (es ++ [e]) = uk_step (uk_run x es) e.
Proof. unfold uk_run. rewrite fold_left_app. reflexivity. Qed.
Lemma usb_turns_snoc es e : usb_turns (es ++ [e]) = (usb_turns es + match e with UvWriter => 1 | UvLine _ => 0 end)%nat.
Proof. unfold usb_turns. rewrite filter_app, app_length. destruct e; reflexivity. Qed.

(** Where the writer is after any events: past as many messages as it had turns,
    or at its end. *)
Section Turns.
Variables (st : state) (good_ bad_ : list message).
Hypothesis M : st_medium st = Usb_hid.
Hypothesis N : Forall (fun m => is_ack_message m = false) (good_ ++ bad_).
Hypothesis G : Forall (writable st) good_.
Hypothesis B : match bad_ with [] => True | m :: _ => ~ writable st m end.
Lemma usb_writer_at : forall es, let k := usb_turns es in
  let w := u_writer (fst (usb_run (usb_new st (good_ ++ bad_)) es)) in
  ((k <= length good_)%nat /\ w = WSend (skipn k good_ ++ bad_)) \/
  ((length good_ < k)%nat /\ match bad_ with [] => w = WStopped | _ => exists x, w = WDead x end).
Proof.
  induction es as [|e es IH] using rev_ind; intros k w; subst k w.
  - left. cbn. split; [lia|reflexivity].
  - destruct (usb_history st (good_ ++ bad_) M N es) as (Ag & _).
    rewrite usb_turns_snoc, usb_run_snoc. cbn [fst].
    cbv zeta in IH. destruct (usb_run (usb_new st (good_ ++ bad_)) es) as [u os]. cbn [fst snd] in *.
    destruct e as [line|].
    { rewrite Nat.add_0_r. cbn [usb_step]. destruct (u_reader u); [exact IH|]. destruct (usb_read line (u_state u)). exact IH. }
    cbn [usb_step]. destruct IH as [[K W]|[K W]].
    + rewrite W. destruct (skipn (usb_turns es) good_) as [|m rest] eqn:Sk.
      * right. split. { apply (f_equal (@length message)) in Sk. rewrite skipn_length in Sk. cbn in Sk. lia. }
        cbn [app]. destruct bad_ as [|m bad]; [reflexivity|].
        unfold usb_write, mbind, mret. destruct (C30_encode m st (u_state u) Ag) as [E _].
        destruct (encode_msg m (u_state u)) as [[b|x] s1]; cbn [fst] in E |- *; [|eexists; reflexivity].
        rewrite repr_displayable. destruct (displayable m) eqn:D; cbn; [|eexists; reflexivity].
        destruct B. split; [exists b; exact E|exact D].
      * left. assert (L : (usb_turns es < length good_)%nat).
        { apply (f_equal (@length message)) in Sk. rewrite skipn_length in Sk. cbn in Sk. lia. }
        split; [lia|]. cbn [app].
        assert (Im : In m good_). { rewrite <- (firstn_skipn (usb_turns es) good_), Sk. apply in_or_app. right. left. reflexivity. }
        pose proof (proj1 (Forall_forall _ _) G m Im) as [[b0 E0] D].
        unfold usb_write, mbind, mret. destruct (C30_encode m st (u_state u) Ag) as [E _]. rewrite E0 in E.
        destruct (encode_msg m (u_state u)) as [r s1]. cbn [fst] in E. subst r. rewrite repr_displayable, D. cbn.
        f_equal. f_equal. rewrite Nat.add_1_r. symmetry. clear - Sk. revert Sk. generalize (usb_turns es) as k. intros k. revert good_.
        induction k as [|k IH]; intros [|x l] Sk; cbn in *; try discriminate; [injection Sk as _ ->; reflexivity|]. destruct l as [|y l]; [destruct k; discriminate Sk|].
        exact (IH (y :: l) Sk).
    + right. split; [lia|]. destruct bad_ as [|m bad]; [rewrite W; exact W|]. destruct W as [x W]. rewrite W. exists x. exact W.
Qed.
Lemma usb_clock late t0 : 0 <= late -> forall es, uk_prompt late (uk_start st (good_ ++ bad_) t0) es ->
  let x := uk_run (uk_start st (good_ ++ bad_) t0) es in
  let k := Z.of_nat (usb_turns (map snd es)) in
  let n := Z.of_nat (length good_) in
  (k <= n -> t0 + 3000 * k <= uk_wake x <= t0 + k * (3000 + late) /\ uk_now x <= uk_wake x + late) /\
  (k = n + 1 -> bad_ = [] -> t0 + 3000 * n <= uk_now x <= t0 + late + n * (3000 + late)) /\
  (bad_ = [] -> k <= n + 1).
Proof.
  intros L. induction es as [|[t e] es IH] using rev_ind; intros P x k n; subst x k n.
  - unfold usb_turns. cbn -[Z.mul Z.add]. lia.
  - apply uk_prompt_app in P. destruct P as [P [(Q1 & Q2 & Q3) _]]. cbn [fst snd] in Q1, Q2, Q3. specialize (IH P). cbv zeta in IH.
    rewrite uk_run_snoc, map_app. cbn [map snd]. rewrite usb_turns_snoc.
    assert (C0 : uk_client (uk_run (uk_start st (good_ ++ bad_) t0) es) = fst (usb_run (usb_new st (good_ ++ bad_)) (map snd es)))
      by apply uk_client_run.
    pose proof (usb_writer_at (map snd es)) as W. pose proof (usb_writer_at (map snd es ++ [e])) as W1. cbv zeta in W, W1.
    rewrite usb_run_snoc, usb_turns_snoc in W1. cbn [fst] in W1. rewrite <- C0 in W, W1.
    set (x := uk_run (uk_start st (good_ ++ bad_) t0) es) in *. unfold uk_step. cbn [fst snd uk_wake uk_now].
    destruct IH as (I1 & I2 & I3). destruct W as [[Wk W]|[Wk W]].
    + rewrite W in Q3. destruct e as [line|].
      { rewrite Nat.add_0_r. split; [intros K; specialize (I1 K); lia|]. split; [intros K; lia|intros K; lia]. }
      specialize (Q2 eq_refl). assert (I1' := I1 ltac:(lia)). destruct W1 as [[Wk1 W1]|[Wk1 W1]].
      * rewrite W1. cbn [usb_pause]. split; [intros K; nia|]. split; intros K; lia.
      * split; [intros K; lia|]. split; [intros K Eb; nia|intros Eb; lia].
    + destruct bad_ as [|m bad]; [rewrite W in Q3; destruct Q3|]. split; [intros K; lia|]. split; intros K; discriminate || (intros; discriminate).
Qed.
End Turns.

(** ** C96 *)

(** Message number k, counted from 0, is written 3k seconds after the client was
    made, or later by at most [late] for every turn. *)
Theorem C96_writes : forall st msgs late t0 es t, st_medium st = Usb_hid -> Forall (fun m => is_ack_message m = false) msgs ->
  Forall (writable st) msgs -> 0 <= late -> uk_prompt late (uk_start st msgs t0) (es ++ [(t, UvWriter)]) ->
  let k := usb_turns (map snd es) in
  t0 + 3000 * Z.of_nat k <= t <= t0 + late + Z.of_nat k * (3000 + late) /\
  (forall m, nth_error msgs k = Some m -> exists b, fst (encode_msg m st) = Ok b /\
     uo_written (snd (usb_step (uk_client (uk_run (uk_start st msgs t0) es)) UvWriter)) = [String.append (msg_str b) newline]) /\
  (nth_error msgs k = None -> k = length msgs /\
     u_writer (uk_client (uk_run (uk_start st msgs t0) (es ++ [(t, UvWriter)]))) = WStopped).
Proof.
  intros st msgs late t0 es t M N G L P k.
  assert (N' : Forall (fun m => is_ack_message m = false) (msgs ++ [])) by (rewrite app_nil_r; exact N).
  pose proof P as P'. apply uk_prompt_app in P'. destruct P' as [P1 [(Q1 & Q2 & Q3) _]]. cbn [fst snd] in Q1, Q2, Q3. specialize (Q2 eq_refl).
  pose proof (usb_writer_at st msgs [] M N' G Logic.I (map snd es)) as W.
  pose proof (usb_clock st msgs [] M N' G Logic.I late t0 L es) as T. rewrite app_nil_r in *. specialize (T P1). cbv zeta in W, T.
  assert (C0 : uk_client (uk_run (uk_start st msgs t0) es) = fst (usb_run (usb_new st msgs) (map snd es))) by apply uk_client_run.
  rewrite <- C0 in W. fold k in W, T. destruct T as (T1 & T2 & T3).
  destruct W as [[Wk W]|[Wk W]]; [|rewrite W in Q3; destruct Q3]. rewrite app_nil_r in W. rewrite W in Q3.
  specialize (T1 ltac:(lia)). split; [lia|].
  pose proof (usb_history st msgs M N (map snd es)) as (Ag & _). rewrite <- C0 in Ag.
  split.
  - intros m Em. assert (Im : In m msgs) by exact (nth_error_In _ _ Em).
    destruct (proj1 (Forall_forall _ _) G m Im) as [[b E] D]. exists b. split; [exact E|].
    cbn [usb_step]. rewrite W.
    assert (Sk : exists r, skipn k msgs = m :: r).
    { clear - Em. revert msgs Em. induction k as [|k IH]; intros [|y l] Em; cbn in *; try discriminate; [injection Em as ->; eauto|exact (IH l Em)]. }
    destruct Sk as [r ->]. unfold usb_write, mbind, mret. destruct (C30_encode m st _ Ag) as [E1 _]. rewrite E in E1.
    destruct (encode_msg m (u_state (uk_client (uk_run (uk_start st msgs t0) es)))) as [r1 s1]. cbn [fst] in E1. subst r1. reflexivity.
  - intros Em. apply nth_error_None in Em. assert (Ek : k = length msgs) by lia. split; [exact Ek|].
    rewrite uk_run_snoc. cbn [uk_step uk_client snd usb_step]. rewrite W, Ek, skipn_all. reflexivity.
Qed.
Print Assumptions C96_writes.

(** So the client ends three seconds after its last message: until then it is
    there and reads what comes (C53), and nothing happens later than that, but
    for the lateness of the turns. *)
Theorem C96_ends : forall st msgs late t0 es, st_medium st = Usb_hid -> Forall (fun m => is_ack_message m = false) msgs ->
  Forall (writable st) msgs -> 0 <= late -> uk_prompt late (uk_start st msgs t0) es ->
  let x := uk_run (uk_start st msgs t0) es in
  let n := Z.of_nat (length msgs) in
  uk_now x <= t0 + late + n * (3000 + late) /\
  (u_writer (uk_client x) = WStopped -> t0 + 3000 * n <= uk_now x) /\
  (u_writer (uk_client x) = WStopped <-> usb_turns (map snd es) = S (length msgs)).
Proof.
  intros st msgs late t0 es M N G L P x n.
  assert (N' : Forall (fun m => is_ack_message m = false) (msgs ++ [])) by (rewrite app_nil_r; exact N).
  pose proof (usb_writer_at st msgs [] M N' G Logic.I (map snd es)) as W.
  pose proof (usb_clock st msgs [] M N' G Logic.I late t0 L es) as T. rewrite app_nil_r in *. specialize (T P). cbv zeta in W, T.
  assert (C0 : uk_client (uk_run (uk_start st msgs t0) es) = fst (usb_run (usb_new st msgs) (map snd es))) by apply uk_client_run.
  rewrite <- C0 in W. fold x in W, T. fold n in T. destruct T as (T1 & T2 & T3). specialize (T3 eq_refl).
  destruct W as [[Wk W]|[Wk W]].
  - specialize (T1 ltac:(lia)). split; [nia|]. rewrite W. split; [discriminate|]. split; [discriminate|lia].
  - specialize (T2 ltac:(lia) eq_refl). split; [lia|]. split; [intros _; lia|]. split; [intros _; lia|intros _; exact W].
Qed.
Print Assumptions C96_ends.

(** With a message that cannot be encoded or displayed the client never ends,
    whatever happens (C53 says what it has written). *)
Theorem C96_stuck : forall st msgs es, st_medium st = Usb_hid -> Forall (fun m => is_ack_message m = false) msgs ->
  ~ Forall (writable st) msgs ->
  u_writer (fst (usb_run (usb_new st msgs) es)) <> WStopped.
Proof.
  intros st msgs es M N F.
  assert (Sp : exists a m b, msgs = a ++ m :: b /\ Forall (writable st) a /\ ~ writable st m).
  { clear N. assert (Dec : forall m, writable st m \/ ~ writable st m).
    { intros m. unfold writable. destruct (fst (encode_msg m st)) as [b|x] eqn:E; [|right; intros [[b' H] _]; discriminate H].
      destruct (displayable m); [left; split; [exists b; reflexivity|reflexivity]|right; intros [_ H]; discriminate H]. }
    induction msgs as [|m msgs IH]; [destruct F; constructor|]. destruct (Dec m) as [Wm|Wm].
    - destruct IH as (a & m1 & b & -> & A & B); [intros H; apply F; constructor; assumption|].
      exists (m :: a), m1, b. repeat split; [constructor; assumption|exact B].
    - exists [], m, msgs. repeat split; [constructor|exact Wm]. }
  destruct Sp as (a & m & b & -> & A & B).
  destruct (usb_writer_at st a (m :: b) M N A B es) as [[_ W]|[_ [x W]]]; rewrite W; discriminate.
Qed.
Print Assumptions C96_stuck.

Definition ex_stay : list (Z * usb_event) :=
  [(3, UvWriter); (500, UvLine (ex_line (ex_usb ex_frame))); (3008, UvWriter); (5999, UvLine (ex_line (ex_usb ex_frame))); (6008, UvWriter)].
Example C96_example :
  st_medium (ex_st Usb_hid) = Usb_hid /\ Forall (fun m => is_ack_message m = false) (firstn 2 ex_msgs) /\
  length (firstn 2 ex_msgs) = 2%nat /\ Forall (writable (ex_st Usb_hid)) (firstn 2 ex_msgs) /\
  uk_prompt 10 (uk_start (ex_st Usb_hid) (firstn 2 ex_msgs) 0) ex_stay /\
  u_writer (uk_client (uk_run (uk_start (ex_st Usb_hid) (firstn 2 ex_msgs) 0) ex_stay)) = WStopped /\
  ~ Forall (writable (ex_st Usb_hid)) [MGroupValueReadReq (mkasap 77 None)].
Proof.
  split; [reflexivity|]. split; [repeat constructor|]. split; [reflexivity|].
  split. { repeat constructor; eexists; vm_compute; reflexivity. }
  split. { vm_compute. repeat split; try discriminate; intros; discriminate. }
  split; [vm_compute; reflexivity|].
  intros F. apply Forall_inv in F. destruct F as [[b E] _]. vm_compute in E. discriminate E.
Qed.
