(** C69: what ends the daemon. *)
From Coq Require Import String Ascii ZArith List Bool Lia ZifyBool Permutation.
From Verif Require Import Py Base Daemon DaemonLife SpecMsg SpecDaemon DaemonProofs Props_Daemon.
Import ListNotations.
Open Scope Z_scope.

(** The events of a history of incidents, and the incidents that should end the
    daemon: a failing select(), accept() or read from the device, a packet for
    the device that cannot be written, and a bus packet while the connection of
    a registered client is broken. *)
Definition events (h : list incident) : list devent :=
  flat_map (fun i => match i with Event e _ _ => [e] | _ => [] end) h.
Definition fatal (es : list devent) (i : incident) : Prop :=
  match i with
  | Event (DBus _) w _ => exists fd, In fd (registered es) /\ w fd = Killed
  | Event (DClient _ (_ :: _) _) _ b => b <> Written
  | Event _ _ _ => False
  | _ => True
  end.
Definition lives (scan : scanner) (packet : list Z) (h : list incident) : option daemon :=
  fst (life_run scan (Some (daemon_new packet)) h).
Definition reaction (scan : scanner) (packet : list Z) (h : list incident) (i : incident) : list dout :=
  snd (life_step scan (lives scan packet h) i).
Definition writes_to (w : Z -> wresult) (fd : Z) : bool := match w fd with Written => true | _ => false end.

Lemma life_snoc scan : forall h d i, fst (life_run scan d (h ++ [i])) = fst (life_step scan (fst (life_run scan d h)) i).
Proof.
  induction h as [|a h IH]; intros d i; cbn [app life_run].
  - cbn [fst]. destruct (life_step scan d i) as [d1 o]. reflexivity.
  - destruct (life_step scan d a) as [d1 o]. specialize (IH d1 i).
    destruct (life_run scan d1 (h ++ [i])) as [d2 os]. destruct (life_run scan d1 h) as [d3 os']. exact IH.
Qed.
Lemma events_snoc h i : events (h ++ [i]) = events h ++ events [i].
Proof. unfold events. rewrite flat_map_app. reflexivity. Qed.
Lemma possible_app es fs : forall conn, possible conn (es ++ fs) -> possible conn es.
Proof. induction es as [|a es IH]; intros conn H; [exact I|]. cbn [app possible] in *. split; [tauto|]. apply IH. tauto. Qed.
Lemma deliver_alive w text fds : (forall fd, In fd fds -> w fd <> Killed) ->
  deliver w text fds = (map (fun fd => ToClient fd text) (filter (writes_to w) fds), true).
Proof.
  induction fds as [|fd fds IH]; intros H; [reflexivity|]. cbn [deliver filter]. unfold writes_to at 1.
  rewrite IH by (intros x X; apply H; right; exact X).
  destruct (w fd) eqn:E; [reflexivity|reflexivity|]. exfalso. apply (H fd); [left; reflexivity|exact E].
Qed.
Lemma deliver_dead w text fds fd : In fd fds -> w fd = Killed -> snd (deliver w text fds) = false.
Proof.
  induction fds as [|x fds IH]; intros H K; [destruct H|]. cbn [deliver].
  destruct (w x) eqn:E; [| |reflexivity].
  - destruct H as [->|H]; [rewrite K in E; discriminate|]. specialize (IH H K). destruct (deliver w text fds). exact IH.
  - destruct H as [->|H]; [rewrite K in E; discriminate|]. exact (IH H K).
Qed.
Lemma some_killed (w : Z -> wresult) fds : (exists fd, In fd fds /\ w fd = Killed) \/ (forall fd, In fd fds -> w fd <> Killed).
Proof.
  induction fds as [|x fds IH]; [right; intros fd []|].
  destruct (w x) eqn:E; [| |left; exists x; split; [left; reflexivity|exact E]];
    (destruct IH as [(fd & I & K)|N]; [left; exists fd; split; [right; exact I|exact K]|right];
     intros fd [<-|I]; [rewrite E; discriminate|apply N; exact I]).
Qed.

(** One incident: what it does to a daemon that has lived through [es]. *)
Lemma life_one scan packet es i : c_scanner scan -> octets packet -> zlen packet = 56 -> possible [] (es ++ events [i]) ->
  (fatal es i -> fst (life_step scan (Some (dafter scan packet es)) i) = None) /\
  (~ fatal es i -> fst (life_step scan (Some (dafter scan packet es)) i) = Some (dafter scan packet (es ++ events [i]))).
Proof.
  intros CS O L P. pose proof (inv_history scan packet CS O L es (possible_app _ _ _ P)) as I.
  destruct i as [| | |[fd|data|fd chunk u] w b]; cbn [life_step fatal]; try (split; [reflexivity|intros H; exfalso; apply H; exact Logic.I]).
  - split; [intros []|intros _]. cbn [events flat_map app]. unfold dafter at 2. rewrite run_snoc. reflexivity.
  - set (text := client_text _).
    assert (R : forall fd, In fd (filter (fun x => x >? 0) (dm_slots (dafter scan packet es))) <-> In fd (registered es)).
    { intros fd. pose proof (i_reg _ _ _ I) as Pm. unfold live in Pm. split; apply Permutation_in; [exact Pm|symmetry; exact Pm]. }
    split.
    + intros (fd & Fr & K). pose proof (deliver_dead w text _ fd (proj2 (R fd) Fr) K) as D.
      destruct (deliver w text _) as [o a]. cbn [snd] in D. subst a. reflexivity.
    + intros N. rewrite deliver_alive by (intros fd F K; apply N; exists fd; split; [apply R; exact F|exact K]).
      cbn [events flat_map app fst]. unfold dafter at 4. rewrite run_snoc. reflexivity.
  - destruct chunk as [|x chunk].
    + split; [intros []|intros _]. cbn [events flat_map app]. unfold dafter at 2. rewrite run_snoc.
      fold (dafter scan packet es). destruct (daemon_step scan (dafter scan packet es) (DClient fd [] u)) as [d' o] eqn:E.
      assert (o = []) as -> by (cbn in E; injection E as _ <-; reflexivity). reflexivity.
    + cbn [events flat_map app]. unfold dafter at 3. rewrite run_snoc. fold (dafter scan packet es).
      rewrite client_step by discriminate. destruct b; cbn [fst]; (split; [intros H; try reflexivity|intros H; try reflexivity]).
      * exfalso. apply H. reflexivity.
      * exfalso. apply H. discriminate.
      * exfalso. apply H. discriminate.
Qed.
Lemma fatal_dec es i : fatal es i \/ ~ fatal es i.
Proof.
  destruct i as [| | |[fd|data|fd chunk u] w b]; cbn [fatal]; try (left; exact I).
  - right. intros [].
  - destruct (some_killed w (registered es)) as [H|H]; [left; exact H|right; intros (fd & A & B); exact (H fd A B)].
  - destruct chunk; [right; intros []|]. destruct b; [right; intros H; apply H; reflexivity|left; discriminate|left; discriminate].
Qed.
Lemma dead_step scan i : life_step scan None i = (None, []).
Proof. destruct i; reflexivity. Qed.
Lemma dead_run scan h : fst (life_run scan None h) = None.
Proof.
  induction h as [|i h IH]; [reflexivity|]. cbn [life_run]. rewrite dead_step. destruct (life_run scan None h). exact IH.
Qed.

(** The daemon lives after a history exactly when none of its incidents was
    fatal. *)
Theorem C69_alive : forall scan packet h, c_scanner scan -> octets packet -> zlen packet = 56 -> possible [] (events h) ->
  (lives scan packet h <> None <-> forall before i after, h = before ++ i :: after -> ~ fatal (events before) i).
Proof.
  intros scan packet h CS O L P.
  enough (X : (lives scan packet h = Some (dafter scan packet (events h)) /\
               forall before i after, h = before ++ i :: after -> ~ fatal (events before) i) \/
              (lives scan packet h = None /\ exists before i after, h = before ++ i :: after /\ fatal (events before) i)).
  { destruct X as [[E N]|[E (b & i & a & Eh & F)]]; rewrite E.
    - split; [intros _; exact N|intros _ H; discriminate H].
    - split; [intros H; contradiction|intros H; exfalso; exact (H b i a Eh F)]. }
  induction h as [|i h IH] using rev_ind.
  - left. split; [reflexivity|]. intros b i a E. destruct b; discriminate E.
  - rewrite events_snoc in P. specialize (IH (possible_app _ _ _ P)). unfold lives. rewrite life_snoc. fold (lives scan packet h).
    destruct IH as [[E N]|[E (b & j & a & Eh & F)]]; rewrite E.
    + destruct (life_one scan packet (events h) i CS O L P) as [A B]. destruct (fatal_dec (events h) i) as [F|F].
      * right. split; [apply A; exact F|]. exists h, i, []. split; [reflexivity|exact F].
      * left. split; [rewrite events_snoc; apply B; exact F|].
        intros b j a Eh. destruct a as [|x a].
        -- apply app_inj_tail in Eh. destruct Eh as [<- <-]. exact F.
        -- assert (T : x :: a <> []) by discriminate. destruct (exists_last T) as (a' & y & Ea). rewrite Ea in Eh.
           rewrite app_comm_cons, app_assoc in Eh. apply app_inj_tail in Eh. destruct Eh as [Eh _]. exact (N b j a' Eh).
    + right. split; [rewrite dead_step; reflexivity|]. exists b, j, (a ++ [i]). split; [|exact F]. rewrite Eh, <- app_assoc. reflexivity.
Qed.
Print Assumptions C69_alive.
(** As long as it lives it is in the state of the daemon without failures, so
    that C55-C58 hold for it. *)
Theorem C69_same : forall scan packet h d, c_scanner scan -> octets packet -> zlen packet = 56 -> possible [] (events h) ->
  lives scan packet h = Some d -> d = dafter scan packet (events h).
Proof.
  intros scan packet h. induction h as [|i h IH] using rev_ind; intros d CS O L P E.
  - injection E as <-. reflexivity.
  - rewrite events_snoc in *. unfold lives in E. rewrite life_snoc in E. fold (lives scan packet h) in E.
    destruct (lives scan packet h) as [d0|] eqn:E0; [|rewrite dead_step in E; discriminate E].
    rewrite (IH d0 CS O L (possible_app _ _ _ P) eq_refl) in E.
    destruct (life_one scan packet (events h) i CS O L P) as [A B]. destruct (fatal_dec (events h) i) as [F|F].
    + rewrite (A F) in E. discriminate E.
    + rewrite (B F) in E. injection E as <-. reflexivity.
Qed.
Print Assumptions C69_same.
(** A failing write loses the line of that client and of nobody else. *)
Theorem C69_others : forall scan packet h data w b, c_scanner scan -> octets packet -> zlen packet = 56 ->
  possible [] (events (h ++ [Event (DBus data) w b])) -> lives scan packet h <> None ->
  (forall fd, In fd (registered (events h)) -> w fd <> Killed) ->
  Permutation (reaction scan packet h (Event (DBus data) w b))
    (map (fun fd => ToClient fd (lower_line data)) (filter (writes_to w) (registered (events h)))).
Proof.
  intros scan packet h data w b CS O L P E N. rewrite events_snoc in P. cbn [events flat_map app] in P.
  apply possible_snoc in P. destruct P as [P1 [Od Ld]].
  pose proof (inv_history scan packet CS O L (events h) P1) as I. unfold reaction.
  destruct (lives scan packet h) as [d|] eqn:E0; [|contradiction]. rewrite (C69_same scan packet h d CS O L P1 E0). cbn [life_step].
  fold (live (dm_slots (dafter scan packet (events h)))).
  assert (R : forall fd, In fd (live (dm_slots (dafter scan packet (events h)))) -> w fd <> Killed).
  { intros fd F. apply N. exact (Permutation_in _ (i_reg _ _ _ I) F). }
  rewrite deliver_alive by exact R. cbn [snd].
  assert (T : ztake (zlen data) (overlay data (dm_packet (dafter scan packet (events h)))) = data).
  { unfold overlay. rewrite ztake_firstn. unfold zlen at 1. rewrite Nat2Z.id, firstn_app, firstn_all, Nat.sub_diag. cbn [firstn]. apply app_nil_r. }
  rewrite T, client_text_lower by exact Od. apply Permutation_map.
  pose proof (i_reg _ _ _ I) as Pm. revert Pm. generalize (live (dm_slots (dafter scan packet (events h)))) (registered (events h)).
  intros l r. induction 1 as [|x l r H IH|x y l|l m r H1 IH1 H2 IH2]; cbn [filter]; [constructor| | |eapply perm_trans; eassumption].
  - destruct (writes_to w x); [constructor|]; assumption.
  - destruct (writes_to w x), (writes_to w y); try reflexivity. apply perm_swap.
Qed.
Print Assumptions C69_others.
(** A bus packet while one registered client has gone away without the daemon
    noticing silences the daemon for everybody, whatever happens later. *)
Theorem C69_broken : forall scan packet h data w b fd later i, c_scanner scan -> octets packet -> zlen packet = 56 ->
  possible [] (events (h ++ [Event (DBus data) w b])) -> In fd (registered (events h)) -> w fd = Killed ->
  lives scan packet (h ++ Event (DBus data) w b :: later) = None /\
  reaction scan packet (h ++ Event (DBus data) w b :: later) i = [].
Proof.
  intros scan packet h data w b fd later i CS O L P F K.
  enough (E : lives scan packet (h ++ Event (DBus data) w b :: later) = None).
  { split; [exact E|]. unfold reaction. rewrite E, dead_step. reflexivity. }
  assert (D : lives scan packet (h ++ [Event (DBus data) w b]) = None).
  { destruct (lives scan packet (h ++ [Event (DBus data) w b])) as [d|] eqn:E; [|reflexivity]. exfalso.
    assert (N : lives scan packet (h ++ [Event (DBus data) w b]) <> None) by (rewrite E; discriminate).
    pose proof (proj1 (C69_alive scan packet _ CS O L P) N h _ [] eq_refl) as G. apply G. exists fd. split; assumption. }
  change (Event (DBus data) w b :: later) with ([Event (DBus data) w b] ++ later). rewrite app_assoc.
  revert D. generalize (h ++ [Event (DBus data) w b]). intros h' D.
  induction later as [|j later IH] using rev_ind; [rewrite app_nil_r; exact D|].
  rewrite app_assoc. unfold lives. rewrite life_snoc. fold (lives scan packet (h' ++ later)). rewrite IH, dead_step. reflexivity.
Qed.
Print Assumptions C69_broken.
(** Two clients; a write that fails is survived, then the second client's
    connection breaks. *)
Definition all_well : Z -> wresult := fun _ => Written.
Definition one (fd : Z) (r : wresult) : Z -> wresult := fun x => if x =? fd then r else Written.
Definition ex_life : list incident :=
  [Event (DAccept 7) all_well Written; Event (DAccept 8) all_well Written;
   Event (DClient 7 ex_line7 ex_around) all_well Written; Event (DBus [0x01; 0x13; 0xFF]) (one 8 Failed) Written].
Example C69_ex : possible [] (events (ex_life ++ [Event (DBus [0x01]) (one 8 Killed) Written])) /\
  registered (events ex_life) = [7; 8] /\ lives ex_scan ex_packet ex_life <> None /\
  reaction ex_scan ex_packet (removelast ex_life) (last ex_life SelectFails) = [ToClient 7 (bytes_of "0113ff" ++ [10])] /\
  reaction ex_scan ex_packet ex_life (Event (DBus [0x01]) (one 8 Killed) Written) = [ToClient 7 (bytes_of "01" ++ [10])] /\
  reaction ex_scan ex_packet ex_life (Event (DBus [0x01]) (one 7 Killed) Written) = [] /\
  lives ex_scan ex_packet (ex_life ++ [Event (DBus [0x01]) (one 8 Killed) Written]) = None /\
  lives ex_scan ex_packet (ex_life ++ [Event (DClient 8 [10] ex_around) all_well Failed]) = None /\
  lives ex_scan ex_packet (ex_life ++ [Event (DClient 8 [] ex_around) all_well Failed]) <> None.
Proof.
  split. { cbn. repeat split; try lia; try (octs; fail); try (intros []; fail). }
  split; [reflexivity|]. split; [vm_compute; discriminate|].
  split; [vm_compute; reflexivity|]. split; [vm_compute; reflexivity|]. split; [vm_compute; reflexivity|].
  split; [vm_compute; reflexivity|]. split; [vm_compute; reflexivity|]. vm_compute. discriminate.
Qed.
