(** Proofs about the reader's stream (C89). *)
From Coq Require Import String Ascii ZArith List Bool Lia ZifyBool.
From Verif Require Import Py Base Msg Address Dpt Tables LData Inet State Encode Decode Client ClientStream Daemon.
From Verif Require Import SpecMsg SpecTables SpecWire SpecDecode SpecClient SpecDaemon SpecStream.
From Verif Require Import ClientProofs DeliveryProofs.
Import ListNotations.
Open Scope Z_scope.

Lemma find_lf_some : forall l n, find_lf l = Some n ->
  exists text more, l = text ++ 10 :: more /\ length text = n /\ ~ In 10 text.
Proof.
  induction l as [|b l IH]; intros n; cbn [find_lf]; [discriminate|]. destruct (b =? 10) eqn:B.
  - intros E. injection E as <-. exists [], l. split; [cbn; f_equal; lia|]. split; [reflexivity|intros []].
  - destruct (find_lf l) as [m|]; [|discriminate]. intros E. injection E as <-. destruct (IH m eq_refl) as (t & r & -> & L & H).
    exists (b :: t), r. split; [reflexivity|]. split; [cbn; congruence|]. intros [J|J]; [lia|exact (H J)].
Qed.
Lemma find_lf_none : forall l, find_lf l = None <-> ~ In 10 l.
Proof.
  induction l as [|b l IH]; cbn [find_lf]; [split; [intros _ []|reflexivity]|]. destruct (b =? 10) eqn:B.
  - split; [discriminate|]. intros H. destruct H. left. lia.
  - destruct (find_lf l) as [m|].
    + split; [discriminate|]. intros H. destruct IH as [_ IH]. discriminate IH. intros J. apply H. right. exact J.
    + destruct IH as [IH _]. split; [|reflexivity]. intros _ [J|J]; [lia|exact (IH eq_refl J)].
Qed.
Lemma find_lf_at : forall text more, ~ In 10 text -> find_lf (text ++ 10 :: more) = Some (length text).
Proof.
  induction text as [|b t IH]; intros more H; [reflexivity|]. cbn [app find_lf length]. destruct (b =? 10) eqn:B; [destruct H; left; lia|].
  rewrite IH; [reflexivity|]. intros J. apply H. right. exact J.
Qed.
(** What readline does. *)
Lemma readline_line text more eof : ~ In 10 text -> zlen text <= 65536 ->
  readline (text ++ 10 :: more) eof = (Some (Ok (text ++ [10])), more).
Proof.
  intros H L. unfold readline. rewrite find_lf_at by exact H. unfold stream_limit, zlen in *. destruct (_ >? _) eqn:E; [lia|].
  replace (text ++ 10 :: more) with ((text ++ [10]) ++ more) by (rewrite <- app_assoc; reflexivity).
  replace (S (length text)) with (length (text ++ [10])) by (rewrite app_length; cbn; lia).
  rewrite firstn_app, Nat.sub_diag, firstn_all, firstn_O, app_nil_r, skipn_app, Nat.sub_diag, skipn_all. reflexivity.
Qed.
Lemma readline_long text more eof : ~ In 10 text -> 65536 < zlen text -> fst (readline (text ++ more) eof) = Some (Err ValueError).
Proof.
  intros H L. unfold readline, stream_limit, zlen in *. destruct (find_lf (text ++ more)) as [n|] eqn:E.
  - assert (n >= length text)%nat.
    { clear L. revert n E. induction text as [|b t IH]; intros n E; [cbn; lia|]. cbn [app find_lf] in E.
      destruct (b =? 10) eqn:B; [destruct H; left; lia|]. destruct (find_lf (t ++ more)) as [m|]; [|discriminate E]. injection E as <-.
      specialize (IH (fun J => H (or_intror J)) m eq_refl). cbn. lia. }
    destruct (_ >? _) eqn:B; [reflexivity|lia].
  - rewrite app_length. destruct (_ >? _) eqn:B; [reflexivity|lia].
Qed.
Lemma readline_cases buf :
  (exists text more, buf = text ++ 10 :: more /\ ~ In 10 text /\ zlen text <= 65536) \/
  (exists text more, buf = text ++ more /\ ~ In 10 text /\ 65536 < zlen text) \/
  (~ In 10 buf /\ zlen buf <= 65536 /\ readline buf false = (None, buf)).
Proof.
  destruct (find_lf buf) as [n|] eqn:E.
  - destruct (find_lf_some _ _ E) as (t & m & -> & L & H). destruct (Z_le_gt_dec (zlen t) 65536); [left|right; left]; exists t; eauto.
    exists (10 :: m). repeat split; auto. lia.
  - pose proof E as F. apply find_lf_none in E. destruct (Z_le_gt_dec (zlen buf) 65536).
    + right; right. split; [exact E|]. split; [assumption|]. unfold readline. rewrite F. unfold stream_limit, zlen in *. destruct (_ >? _) eqn:B; [lia|reflexivity].
    + right; left. exists buf, []. rewrite app_nil_r. repeat split; auto. lia.
Qed.

Lemma sd_run_snoc e : forall es x, sd_run x (es ++ [e]) =
  (fst (sd_step (fst (sd_run x es)) e), snd (sd_run x es) ++ [snd (sd_step (fst (sd_run x es)) e)]).
Proof.
  induction es as [|y es IH]; intros x.
  - cbn [app sd_run fst snd]. destruct (sd_step x e). reflexivity.
  - cbn [app sd_run]. destruct (sd_step x y) as [x1 o]. rewrite IH. destruct (sd_run x1 es). reflexivity.
Qed.
Lemma writer_reader u : u_reader (fst (usb_step u UvWriter)) = u_reader u /\ uo_read (snd (usb_step u UvWriter)) = None.
Proof.
  cbn [usb_step]. destruct (u_writer u) as [l|l| |e]; try (split; reflexivity).
  - destruct l; [split; reflexivity|]. destruct (usb_write m (u_state u)) as [[t|e] s]; split; reflexivity.
  - destruct l; [split; reflexivity|]. destruct (usb_write m (u_state u)) as [[t|e] s]; split; reflexivity.
Qed.

(** The invariant: the reader has taken off the lines [ls]. *)
Definition taken_off st msgs (es : list stream_event) (ls : list (list Z)) (rest : list Z) (es' : list usb_event) : Prop :=
  let x := fst (sd_run (sd_new st msgs) es) in
  let os := snd (sd_run (sd_new st msgs) es) in
  let y := usb_run (usb_new st msgs) es' in
  Forall a_line ls /\ usb_lines es' = map decoded ls /\ bytes_in es = concat ls ++ rest /\ sd_eof x = false /\
  ((sd_client x = fst y /\ usb_reads os = usb_reads (snd y) /\ (u_reader (sd_client x) = None -> sd_buf x = rest)) \/
   (u_reader (fst y) = None /\ u_reader (sd_client x) = Some ValueError /\ usb_reads os = usb_reads (snd y) ++ [Err ValueError] /\
    exists text more, rest = text ++ more /\ ~ In 10 text /\ 65536 < zlen text)).
Lemma reads_app a b : usb_reads (a ++ b) = usb_reads a ++ usb_reads b.
Proof. apply flat_map_app. Qed.
Lemma taken_off_step st msgs es e ls rest es' : e <> SvEnd -> taken_off st msgs es ls rest es' ->
  exists ls1 rest1 es1, taken_off st msgs (es ++ [e]) ls1 rest1 es1.
Proof.
  intros Ne (F & U & R & Eo & C). unfold taken_off. unfold bytes_in in *. rewrite sd_run_snoc, flat_map_app. cbn [fst snd flat_map]. rewrite app_nil_r.
  destruct (sd_run (sd_new st msgs) es) as [x os]. cbn [fst snd] in *. destruct e as [b| | |]; [|congruence| |].
  - exists ls, (rest ++ b), es'. rewrite R, <- app_assoc. cbn [sd_step fst snd sd_client sd_buf sd_eof]. rewrite Eo, reads_app, app_nil_r.
    split; [exact F|]. split; [exact U|]. split; [reflexivity|]. split; [reflexivity|]. destruct C as [(C1 & C2 & C3)|(C1 & C2 & C3 & t & m & C4 & C5 & C6)].
    + left. split; [exact C1|]. split; [exact C2|]. intros N. rewrite (C3 N). reflexivity.
    + right. split; [exact C1|]. split; [exact C2|]. split; [exact C3|]. exists t, (m ++ b). rewrite C4, <- app_assoc. auto.
  - cbn [sd_step]. rewrite R, app_nil_r. destruct (u_reader (sd_client x)) as [err|] eqn:Er.
    { exists ls, rest, es'. cbn [fst snd]. rewrite reads_app, app_nil_r, Er. cbv iota. destruct C as [(C1 & C2 & C3)|C]; repeat split; auto; left; repeat split; auto; discriminate. }
    destruct C as [(C1 & C2 & C3)|(C1 & C2 & _)]; [|discriminate C2]. specialize (C3 eq_refl). rewrite Eo.
    destruct (readline_cases (sd_buf x)) as [(t & m & Eb & H & L)|[(t & m & Eb & H & L)|(H & L & Eb)]].
    + rewrite Eb, readline_line by assumption. exists (ls ++ [t ++ [10]]), m, (es' ++ [UvLine (decoded (t ++ [10]))]).
      rewrite usb_run_snoc. cbn [fst snd]. rewrite <- C1. destruct (usb_step (sd_client x) _) as [u o]. cbn [fst snd sd_client sd_buf sd_eof].
      split; [apply Forall_app; split; [exact F|]; constructor; [|constructor]; exists t; auto|].
      split; [unfold usb_lines in *; rewrite flat_map_app, U, map_app; reflexivity|].
      split; [rewrite concat_app; cbn [concat]; rewrite app_nil_r, <- !app_assoc; cbn [app]; rewrite <- C3, Eb; reflexivity|].
      split; [reflexivity|]. left. split; [reflexivity|]. split; [rewrite !reads_app, C2; reflexivity|]. auto.
    + pose proof (readline_long t m false H L) as Q. rewrite Eb. destruct (readline (t ++ m) false) as [r b]. cbn [fst] in Q. subst r.
      exists ls, rest, es'. cbn [fst snd sd_client sd_buf sd_eof u_reader]. split; [exact F|]. split; [exact U|]. split; [reflexivity|]. split; [reflexivity|].
      right. split; [rewrite <- C1; exact Er|]. split; [reflexivity|]. split; [rewrite reads_app, C2; reflexivity|]. exists t, m. rewrite <- C3, Eb. auto.
    + rewrite Eb. exists ls, rest, es'. cbn [fst snd]. rewrite reads_app, app_nil_r. repeat split; auto.
  - cbn [sd_step]. rewrite R, app_nil_r. destruct (writer_reader (sd_client x)) as [W1 W2].
    destruct C as [(C1 & C2 & C3)|(C1 & C2 & C3 & C4)].
    + exists ls, rest, (es' ++ [UvWriter]). rewrite usb_run_snoc. cbn [fst snd]. rewrite <- C1. destruct (usb_step (sd_client x) UvWriter) as [u o].
      cbn [fst snd sd_client sd_buf sd_eof] in *. split; [exact F|]. split; [unfold usb_lines in *; rewrite flat_map_app, U; cbn; apply app_nil_r|].
      split; [reflexivity|]. split; [exact Eo|]. left. split; [reflexivity|]. split; [rewrite !reads_app, C2; reflexivity|]. rewrite W1. exact C3.
    + exists ls, rest, es'. destruct (usb_step (sd_client x) UvWriter) as [u o]. cbn [fst snd sd_client sd_buf sd_eof] in *.
      split; [exact F|]. split; [exact U|]. split; [reflexivity|]. split; [exact Eo|]. right. split; [exact C1|]. split; [congruence|].
      split; [|exact C4]. assert (Q : usb_reads [o] = []) by (unfold usb_reads; cbn [flat_map]; rewrite W2; reflexivity). rewrite reads_app, C3, Q. apply app_nil_r.
Qed.
Lemma taken_off_all st msgs : forall es, open_still es -> exists ls rest es', taken_off st msgs es ls rest es'.
Proof.
  induction es as [|e es IH] using rev_ind; intros O.
  - exists [], [], []. unfold taken_off. cbn. repeat split; auto.
  - destruct IH as (ls & rest & es' & T); [intros J; apply O, in_or_app; left; exact J|].
    apply (taken_off_step st msgs es e ls rest es'); [|exact T]. intros ->. apply O, in_or_app. right. left. reflexivity.
Qed.

(** Two ways to cut a stream agree. *)
Definition stuck (r : list Z) : Prop := forall l r', a_line l -> r <> l ++ r'.
Lemma stuck_end r : ~ In 10 r -> stuck r.
Proof. intros N l r' (t & -> & _) E. apply N. rewrite E, <- app_assoc. apply in_or_app. right. left. reflexivity. Qed.
Lemma stuck_long t more : ~ In 10 t -> 65536 < zlen t -> stuck (t ++ more).
Proof.
  intros N L l r' (t' & -> & N' & L') E. rewrite <- app_assoc in E. cbn [app] in E.
  pose proof (find_lf_at t' r' N') as F. rewrite <- E in F. destruct (find_lf_some _ _ F) as (a & b & Ea & La & Na).
  rewrite Ea in E. assert (X : nth_error (t ++ more) (length t') = Some 10) by (rewrite Ea, <- La, nth_error_app2, Nat.sub_diag by lia; reflexivity).
  rewrite nth_error_app1 in X by (unfold zlen in *; lia). apply nth_error_In in X. exact (N X).
Qed.
Lemma cut_prefix : forall ls1 ls r1 r, Forall a_line ls1 -> Forall a_line ls -> concat ls1 ++ r1 = concat ls ++ r -> stuck r ->
  exists more, ls = ls1 ++ more /\ r1 = concat more ++ r.
Proof.
  induction ls1 as [|l1 ls1 IH]; intros ls r1 r F1 F E N.
  - exists ls. split; [reflexivity|exact E].
  - inversion F1 as [|a b A1 F1']; subst. cbn [concat] in E. rewrite <- !app_assoc in E. destruct ls as [|l ls].
    + exfalso. cbn [concat app] in E. exact (N l1 _ A1 (eq_sym E)).
    + destruct A1 as (t1 & -> & H1 & L1). inversion F as [|a b (t & -> & H & L) F']; subst. cbn [concat] in E. rewrite <- !app_assoc in E. cbn [app] in E.
      assert (X : t1 = t).
      { pose proof (find_lf_at t1 (concat ls1 ++ r1) H1) as A. rewrite E, (find_lf_at t _ H) in A. injection A as A.
        assert (Q : forall (a b : list Z), firstn (length a) (a ++ b) = a) by (intros a b; rewrite firstn_app, firstn_all, Nat.sub_diag, firstn_O, app_nil_r; reflexivity).
        apply (f_equal (firstn (length t))) in E. rewrite Q, A, Q in E. exact E. }
      subst t. apply app_inv_head in E. injection E as E. destruct (IH ls r1 r F1' F' E N) as (more & -> & Er). exists more. split; [reflexivity|exact Er].
Qed.
Lemma decoded_text l s : text_is l s -> decoded l = s.
Proof.
  intros [<- _]. rewrite <- (string_of_list_ascii_of_string s) at 2. unfold decoded, bytes_of. f_equal.
  induction (list_ascii_of_string s) as [|c r IH]; [reflexivity|]. cbn [map]. rewrite IH, N2Z.id, ascii_N_embedding. reflexivity.
Qed.
Lemma decoded_texts ls ts : Forall2 text_is ls ts -> map decoded ls = ts.
Proof. intros F. induction F as [|l t ls ts H F IH]; [reflexivity|]. cbn. rewrite IH, (decoded_text l t H). reflexivity. Qed.

(** What has been read. *)
Definition fails (st : state) (ts : list string) : bool :=
  existsb (fun r => match r with Err _ => true | _ => false end) (map (line_result st) ts).
Lemma reads_cases st msgs es ls r ts : st_medium st = Usb_hid -> Forall (fun m => is_ack_message m = false) msgs -> open_still es ->
  Forall a_line ls -> bytes_in es = concat ls ++ r -> stuck r -> Forall2 text_is ls ts ->
  let x := fst (sd_run (sd_new st msgs) es) in
  let reads := usb_reads (snd (sd_run (sd_new st msgs) es)) in
  (exists done more, ts = done ++ more /\ reads = until_failure (map (line_result st) done) /\
     (u_reader (sd_client x) <> None -> fails st done = true) /\
     (u_reader (sd_client x) = None -> fails st done = false /\ exists lm, sd_buf x = concat lm ++ r /\ length lm = length more /\ Forall a_line lm)) \/
  (fails st ts = false /\ reads = map (line_result st) ts ++ [Err ValueError] /\ u_reader (sd_client x) <> None /\
   exists text more, r = text ++ more /\ ~ In 10 text /\ 65536 < zlen text).
Proof.
  intros M N O F R S T x reads. destruct (taken_off_all st msgs es O) as (ls1 & r1 & es' & F1 & U & R1 & Eo & C). fold x in Eo, C. fold reads in C.
  destruct (usb_history st msgs M N es') as (_ & Hr & Hd & _). rewrite U in Hr, Hd.
  destruct (cut_prefix ls1 ls r1 r F1 F) as (more & -> & Er); [congruence|exact S|].
  apply Forall2_app_inv_l in T. destruct T as (done & tm & T1 & T2 & ->). rewrite (decoded_texts _ _ T1) in *.
  destruct C as [(C1 & C2 & C3)|(C1 & C2 & C3 & t & m & E & Nt & Lt)].
  - left. exists done, tm. split; [reflexivity|]. rewrite C2, Hr. split; [reflexivity|]. unfold fails. rewrite C1 in *. split.
    + intros D. destruct (existsb _ _); [reflexivity|]. destruct D. apply Hd. reflexivity.
    + intros D. split; [apply Hd, D|]. exists more. split; [rewrite (C3 D); exact Er|]. split; [exact (Forall2_len _ _ _ T2)|].
      apply Forall_app in F. apply F.
  - right. destruct more as [|l more].
    + inversion T2. subst tm. rewrite app_nil_r. unfold fails. rewrite Hd in C1. split; [exact C1|]. split; [rewrite C3, Hr, until_all by exact C1; reflexivity|].
      split; [congruence|]. cbn [concat app] in Er. subst r1. eauto.
    + exfalso. apply Forall_app in F. destruct F as [_ F]. pose proof (Forall_inv F) as A.
      apply (stuck_long t m Nt Lt l (concat more ++ r) A). rewrite <- E, Er. cbn [concat]. rewrite <- app_assoc. reflexivity.
Qed.

(** Looking often enough. *)
Lemma bytes_looks n es : bytes_in (es ++ repeat SvRead n) = bytes_in es.
Proof. unfold bytes_in. rewrite flat_map_app. replace (flat_map _ (repeat SvRead n)) with (@nil Z); [apply app_nil_r|]. induction n; [reflexivity|exact IHn]. Qed.
Lemma open_looks n es : open_still es -> open_still (es ++ repeat SvRead n).
Proof. intros O J. apply in_app_or in J. destruct J as [J|J]; [exact (O J)|]. apply repeat_spec in J. discriminate J. Qed.
Lemma sd_run_app : forall a x b, fst (sd_run x (a ++ b)) = fst (sd_run (fst (sd_run x a)) b).
Proof.
  induction a as [|e a IH]; intros x b; [reflexivity|]. cbn [app sd_run]. destruct (sd_step x e) as [x1 o]. specialize (IH x1 b).
  destruct (sd_run x1 (a ++ b)), (sd_run x1 a). exact IH.
Qed.
Lemma dead_look : forall n x, u_reader (sd_client x) <> None -> fst (sd_run x (repeat SvRead n)) = x.
Proof.
  induction n as [|n IH]; intros x D; [reflexivity|]. cbn [repeat sd_run sd_step]. destruct (u_reader (sd_client x)) eqn:E; [|congruence].
  specialize (IH x ltac:(congruence)). destruct (sd_run x (repeat SvRead n)). exact IH.
Qed.
Lemma looks : forall lm n x r, Forall a_line lm -> sd_buf x = concat lm ++ r -> (length lm <= n)%nat ->
  let y := fst (sd_run x (repeat SvRead n)) in
  u_reader (sd_client y) <> None \/ (stuck r -> exists k, sd_buf x = concat lm ++ r /\ y = fst (sd_run k (repeat SvRead (n - length lm))) /\ sd_buf k = r /\ sd_eof k = sd_eof x).
Proof.
  induction lm as [|l lm IH]; intros n x r F B L.
  - right. intros _. exists x. rewrite Nat.sub_0_r. auto.
  - destruct n as [|n]; [cbn in L; lia|]. inversion F as [|? ? (t & -> & H & Lt) F']; subst. cbn [repeat sd_run sd_step].
    destruct (u_reader (sd_client x)) as [e|] eqn:E.
    + pose proof (dead_look n x ltac:(congruence)) as D. destruct (sd_run x (repeat SvRead n)). cbn [fst] in *. subst. left. congruence.
    + rewrite B. cbn [concat]. rewrite <- !app_assoc. cbn [app]. rewrite readline_line by assumption.
      destruct (usb_step (sd_client x) (UvLine (decoded (t ++ [10])))) as [u o].
      specialize (IH n (mkstreamed u (concat lm ++ r) (sd_eof x)) r F' eq_refl ltac:(cbn in L; lia)). cbn [length Nat.sub].
      destruct (sd_run (mkstreamed u (concat lm ++ r) (sd_eof x)) (repeat SvRead n)) as [y os]. cbn [fst] in *.
      destruct IH as [IH|IH]; [left; exact IH|right]. intros S. destruct (IH S) as (k & _ & K1 & K2 & K3). exists k. auto.
Qed.
Lemma stuck_look : forall n x, stuck (sd_buf x) -> sd_eof x = false ->
  let y := fst (sd_run x (repeat SvRead n)) in
  u_reader (sd_client y) <> None \/ (y = x /\ ((0 < n)%nat -> ~ In 10 (sd_buf x) /\ zlen (sd_buf x) <= 65536)).
Proof.
  induction n as [|n IH]; intros x S E; cbv zeta; [right; split; [reflexivity|lia]|]. cbn [repeat sd_run sd_step].
  destruct (u_reader (sd_client x)) as [e|] eqn:Er.
  - pose proof (dead_look n x ltac:(congruence)) as D. destruct (sd_run x (repeat SvRead n)). cbn [fst] in *. subst. left. congruence.
  - rewrite E. destruct (readline_cases (sd_buf x)) as [(t & m & B & H & L)|[(t & m & B & H & L)|(H & L & B)]].
    + exfalso. apply (S (t ++ [10]) m); [exists t; auto|]. rewrite B, <- app_assoc. reflexivity.
    + pose proof (readline_long t m false H L) as Q. rewrite B. destruct (readline (t ++ m) false) as [r b]. cbn [fst] in Q. subst r.
      match goal with |- context [sd_run ?z (repeat SvRead n)] => pose proof (dead_look n z ltac:(discriminate)) as D; destruct (sd_run z (repeat SvRead n)) as [y os] end.
      cbn [fst] in *. subst. left. discriminate.
    + rewrite B. specialize (IH x S E). destruct (sd_run x (repeat SvRead n)) as [y os]. cbn [fst] in *. cbv zeta in IH.
      destruct IH as [IH|[IH _]]; [left; exact IH|right]. auto.
Qed.
Lemma concat_lines lm : forall (r : list Z), concat lm ++ r = r -> Forall a_line lm -> lm = [].
Proof.
  intros r E F. destruct lm as [|l lm]; [reflexivity|]. inversion F as [|? ? (t & -> & _) _]; subst. apply (f_equal (@length Z)) in E.
  cbn [concat] in E. rewrite !app_length in E. cbn in E. lia.
Qed.
Lemma eof_still st msgs es : open_still es -> sd_eof (fst (sd_run (sd_new st msgs) es)) = false.
Proof. intros O. destruct (taken_off_all st msgs es O) as (ls & r & es' & _ & _ & _ & E & _). exact E. Qed.
(** After as many looks as there are lines, all has been read; after one more, a
    line that is too long has been noticed. *)
Lemma reads_all st msgs es ls r ts n : st_medium st = Usb_hid -> Forall (fun m => is_ack_message m = false) msgs -> open_still es ->
  Forall a_line ls -> bytes_in es = concat ls ++ r -> stuck r -> Forall2 text_is ls ts -> (length ls < n)%nat ->
  let x := fst (sd_run (sd_new st msgs) (es ++ repeat SvRead n)) in
  let reads := usb_reads (snd (sd_run (sd_new st msgs) (es ++ repeat SvRead n))) in
  (reads = until_failure (map (line_result st) ts) /\ (u_reader (sd_client x) = None <-> fails st ts = false) /\
   (fails st ts = false -> sd_buf x = r /\ ~ In 10 r /\ zlen r <= 65536)) \/
  (fails st ts = false /\ reads = map (line_result st) ts ++ [Err ValueError] /\ u_reader (sd_client x) <> None /\
   exists text more, r = text ++ more /\ ~ In 10 text /\ 65536 < zlen text).
Proof.
  intros M N O F R S T L x reads.
  pose proof (open_looks n es O) as O1. pose proof (bytes_looks n es) as R1. rewrite R in R1.
  destruct (reads_cases st msgs _ ls r ts M N O1 F R1 S T) as [(done & more & Et & Hr & Hd & Ha)|C]; [|right; exact C]. fold x in Hd, Ha. fold reads in Hr.
  left. destruct (u_reader (sd_client x)) as [e|] eqn:Er.
  - specialize (Hd ltac:(discriminate)). assert (Fl : fails st ts = true) by (unfold fails in *; rewrite Et, map_app, existsb_app, Hd; reflexivity).
    rewrite Et, map_app, until_failed by exact Hd. split; [exact Hr|]. rewrite <- Et, Fl. split; [split; discriminate|discriminate].
  - destruct (Ha eq_refl) as (Fd & lm & Bl & Ll & Al).
    (* the state before the looks *)
    destruct (reads_cases st msgs es ls r ts M N O F R S T) as [(done0 & more0 & Et0 & _ & Hd0 & Ha0)|(_ & _ & D & _)].
    2: { exfalso. unfold x in Er. rewrite sd_run_app, dead_look in Er by exact D. contradiction. }
    unfold x in Er, Bl. rewrite sd_run_app in Er, Bl. fold (sd_new st msgs) in *. set (x0 := fst (sd_run (sd_new st msgs) es)) in *.
    destruct (u_reader (sd_client x0)) as [e|] eqn:Er0.
    { rewrite dead_look in Er by congruence. congruence. }
    destruct (Ha0 eq_refl) as (_ & lm0 & Bl0 & Ll0 & Al0).
    assert (Lm : (length lm0 <= length ls)%nat).
    { apply Forall2_len in T. rewrite Ll0, T, Et0, app_length. lia. }
    destruct (looks lm0 n x0 r Al0 Bl0 ltac:(lia)) as [D|K]; [congruence|]. destruct (K S) as (k & _ & K1 & K2 & K3).
    pose proof (stuck_look (n - length lm0) k) as Q. rewrite K2, K3 in Q. specialize (Q S (eof_still st msgs es O)). cbv zeta in Q. rewrite <- K1 in Q.
    destruct Q as [Q|[Q1 Q2]]; [congruence|]. specialize (Q2 ltac:(lia)). rewrite Q1, K2 in Bl. symmetry in Bl. pose proof (concat_lines lm r Bl Al) as ->.
    destruct more; [|discriminate Ll]. rewrite app_nil_r in Et. subst done. split; [exact Hr|]. split; [tauto|]. intros _. split; [|exact Q2].
    unfold x. rewrite sd_run_app. fold x0. rewrite Q1. exact K2.
Qed.
