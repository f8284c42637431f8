(** Lemmas for C76 and C77. *)
From Coq Require Import String Ascii ZArith List Bool Lia ZifyBool.
From Verif Require Import Py Base Msg Address Dpt Tables LData Inet State Encode Decode Client.
From Verif Require Import SpecMsg SpecTables SpecWire SpecDecode SpecClient SpecSystem SpecAcross.
From Verif Require Import MsgProofs TablesProofs AssocProofs EncodeProofs DecodeProofs OctetsProofs ClientProofs DeliveryProofs RoundProofs SystemProofs.
From Verif Require Import Props_Decode.
Import ListNotations.
Open Scope Z_scope.

(** The frame of a group request, from what it says. *)
Definition said_frame (s : assoc_table) (go : gobj_table) (m : message) : list Z :=
  match m with
  | MGroupValueReadReq a =>
      match sends_to s a with Ok (x :: _) => group_frame data_req (a_val x) read_tpdu | _ => [] end
  | MGroupValueWriteReq a d =>
      match sends_to s a, type_of go (asap_value a) with
      | Ok (x :: _), Some c => group_frame data_req (a_val x) (write_tpdu c (d_value d))
      | _, _ => []
      end
  | _ => []
  end.
Lemma said_encode st s go m w : st_assoc st = Some s -> st_gobj st = Some go -> said s go m = Some w ->
  fst (encode_msg m st) = wire st (said_frame s go m).
Proof.
  intros Ha Hg Sd. destruct m; try discriminate Sd; cbn [said said_frame] in *.
  - rewrite (read_frame st s _ Ha). destruct (sends_to s _) as [[|x r]|e]; try discriminate Sd. reflexivity.
  - destruct (sends_to s _) as [[|x r]|e] eqn:E; try discriminate Sd.
    destruct (type_of go _) as [c|] eqn:Ec; [|discriminate Sd].
    rewrite (write_frame st s go _ _ c Ha Hg Ec), E. reflexivity.
Qed.
(** The telegram in a carried frame. *)
Lemma carried_telegram x tpci apci data ind : 0 < x < 65536 -> is_octet apci -> octets data -> is_octet tpci ->
  carried (group_frame data_req x (tpci :: apci :: data)) ind -> octets ind /\
  exists c1 c2 src, 128 <= c2 /\ cemi_telegram ind =
    Some (Ind, mktg c1 c2 src x ((zlen (tpci :: apci :: data) - 1) mod 256) tpci apci data).
Proof.
  intros X Oa Od Ot (c1 & c2 & s1 & s2 & rest & info & c1' & c2' & s1' & s2' & E & -> & Li & Oi & Oc & K).
  unfold group_frame, cemi_frame in E. rewrite be_2 in E. cbn [app] in E.
  assert (c2 = 0xE0) as -> by congruence.
  assert (rest = (x / 256 mod 256) :: (x mod 256) :: ((zlen (tpci :: apci :: data) - 1) mod 256) :: tpci :: apci :: data) as -> by congruence.
  clear E. change (128 <=? 0xE0) with true in K. split.
  - rewrite !octets_app. repeat split; try assumption.
    + apply octets_cons. split; [unfold is_octet, data_ind; lia|]. apply octets_cons. split; [|constructor].
      unfold is_octet. pose proof (zlen_nonneg info). lia.
    + repeat (apply octets_cons; split; [try assumption; unfold is_octet; lia|]). assumption.
  - exists c1', c2', (256 * s1' + s2'). split; [lia|].
    unfold cemi_telegram. cbn [app]. rewrite zdrop_skipn. unfold zlen at 1. rewrite Nat2Z.id, skipn_app, skipn_all, Nat.sub_diag. cbn [skipn app].
    change (data_ind =? data_ind) with true. cbv iota. do 3 f_equal. lia.
Qed.
Lemma listed_heard s x : existsb (Z.eqb x) (vals (at_addrs (as_table s))) = true <-> In x (vals (at_addrs (as_table s))).
Proof. apply listed_In. Qed.

(** A telegram that says [w]. *)
Definition says (t : telegram) (w : Z * option Z) : Prop :=
  group_telegram t /\ t_dst t = fst w /\
  match snd w with
  | None => group_service t = Some Read /\ forall c, raw c t = 0
  | Some n => group_service t = Some Write /\ forall c, raw c t = n mod 256 ^ value_octets c
  end.
Lemma said_says s go m w ind : said s go m = Some w -> 0 < fst w < 65536 -> carried (said_frame s go m) ind ->
  octets ind /\ exists t, cemi_telegram ind = Some (Ind, t) /\ says t w.
Proof.
  intros Sd X C. destruct m; try discriminate Sd; cbn [said said_frame] in *.
  - destruct (sends_to s _) as [[|x r]|e]; try discriminate Sd. injection Sd as <-. cbn [fst snd] in *.
    destruct (carried_telegram (a_val x) 0 0 [] ind X ltac:(unfold is_octet; lia) ltac:(constructor) ltac:(unfold is_octet; lia) C) as (O & c1 & c2 & src & K & E).
    split; [exact O|]. eexists. split; [exact E|]. split; [|split; [reflexivity|]].
    + split; [unfold group_addressed; cbn; lia|]. split; [cbn; lia|reflexivity].
    + split; [reflexivity|]. intros c. unfold raw, payload. cbn [t_data t_apci]. change (big_endian [0]) with 0. apply Z.mod_0_l. apply Z.pow_nonzero; [lia|]. destruct c; discriminate.
  - destruct (sends_to s _) as [[|x r]|e] eqn:E; try discriminate Sd.
    destruct (type_of go _) as [c|] eqn:Ec; [|discriminate Sd]. injection Sd as <-. cbn [fst snd] in *.
    destruct (write_tpdu_shape c (d_value d)) as (apci & data & Et & A & Od & Zd & Bv). rewrite Et in C.
    destruct (carried_telegram (a_val x) 0 apci data ind X ltac:(unfold is_octet; lia) Od ltac:(unfold is_octet; lia) C) as (O & c1 & c2 & src & K & Ei).
    split; [exact O|]. eexists. split; [exact Ei|]. split; [|split; [reflexivity|]].
    + split; [unfold group_addressed; cbn; lia|]. split; [cbn; lia|reflexivity].
    + split; [apply write_service; exact A|]. intros c'. apply (raw_sent c (d_value d)). exact Bv.
Qed.
Lemma says_heard tb l h st s go c m t w : built tb l h s -> received st s go c m Ind t -> says t w -> audible tb l h s go w ->
  fst (decode_msg c m st) = Ok (reported st (heard tb l h s go w)).
Proof.
  intros B R (G & D & Sv) (X & Au). unfold heard. rewrite <- D in *. destruct (existsb _ _) eqn:Li.
  - apply listed_heard in Li. destruct (Au Li) as [V Sh].
    destruct (snd w) as [n|]; destruct Sv as [Sv Rw].
    + rewrite (C24_receivers tb l h st s go c m Ind t Write B R G Li Sv V).
      * do 2 f_equal. unfold group_messages. apply map_ext. intros p. cbn [group_message]. unfold as_class. rewrite Rw. reflexivity.
      * unfold first_displayable. change (receivers tb l h (t_dst t) go) with (reaches tb l h (t_dst t) go).
        destruct (reaches tb l h (t_dst t) go) as [|p r]; [exact I|]. rewrite Rw. exact Sh.
    + rewrite (C24_receivers tb l h st s go c m Ind t Read B R G Li Sv V).
      * do 2 f_equal. unfold group_messages. apply map_ext. intros p. cbn [group_message]. rewrite Rw. reflexivity.
      * unfold first_displayable. destruct (receivers tb l h (t_dst t) go) as [|p r]; [exact I|]. rewrite Rw. destruct (snd p); reflexivity.
  - rewrite (C24_unlisted st s go c m Ind t R G); [reflexivity|]. intros Hi. apply listed_heard in Hi. congruence.
Qed.

(** ** The system's log is a history of its client *)
Lemma sy_history ip ch s0 frame c a0 hs : 0 <= ch < 256 -> fits s0 -> sendable frame -> sim ip ch s0 frame (sy_start c ch) a0 ->
  let s := sy_run frame (sy_start c ch) hs in
  exists es, sy_log s = trace c es /\ sy_client s = after c es /\ orderly true es /\ fold_left up_step es true = true.
Proof.
  intros Hch F0 Mf S0. cbv zeta. induction hs as [|h hs IH] using rev_ind; [exists []; repeat split|].
  destruct IH as (es & L & C & O & U).
  destruct (sim_inv (fun _ => True) ip ch s0 frame hs Hch F0 Mf (fun _ _ _ _ _ => I) _ _ S0 I) as (a & Sa & _).
  unfold sy_run in *. rewrite fold_left_app. cbn [fold_left]. set (s := fold_left (sy_step frame) hs (sy_start c ch)) in *.
  assert (Y : forall down e, orderly true [e] -> up_step true e = true -> exists es', sy_log (sy_client_event s down e) = trace c es' /\
    sy_client (sy_client_event s down e) = after c es' /\ orderly true es' /\ fold_left up_step es' true = true).
  { intros down e Oe Ue. exists (es ++ [e]). unfold sy_client_event. rewrite trace_snoc, after_snoc, <- C, <- L. unfold shown. rewrite <- C.
    destruct (client_step (sy_client s) e) as [c1 o]. cbn [sy_log sy_client fst snd]. repeat split.
    - apply orderly_app. split; [exact O|]. rewrite U. exact Oe.
    - rewrite fold_left_app, U. exact Ue. }
  destruct h; cbn [sy_step]; try (exists es; repeat split; assumption).
  - destruct (sy_down s) as [|d r] eqn:Ed; [exists es; repeat split; assumption|].
    apply Y; [|reflexivity]. split; [reflexivity|]. split; [|exact I].
    pose proof (m_down _ _ _ _ _ _ Sa) as Md. rewrite Ed in Md. destruct (a_down a) as [|[i|j] q]; try discriminate Md.
    + apply (f_equal (hd [])) in Md. cbn [hd map down_dgram] in Md. subst d. apply request_octets. apply Mf.
    + apply (f_equal (hd [])) in Md. cbn [hd map down_dgram] in Md. subst d. apply ack_octets.
  - destruct (sy_up s) as [|d r]; [exists es; repeat split; assumption|].
    destruct (gw_receive (sy_gw s) d) as [g answer]. exists es. repeat split; assumption.
  - apply Y; [exact I|reflexivity].
Qed.
Lemma flat_map_map {A B C} (f : B -> list C) (g : A -> B) l : flat_map f (map g l) = flat_map (fun x => f (g x)) l.
Proof. induction l; cbn; congruence. Qed.
Lemma Forall2_map_eq {A B} (f : A -> B) a b : Forall2 (fun x y => y = f x) a b -> b = map f a.
Proof. induction 1; cbn; congruence. Qed.
Lemma sent_said ip c0 msgs es0 ch frame s go hs : linked ip c0 msgs es0 ch -> sendable frame ->
  st_assoc (c_state c0) = Some s -> st_gobj (c_state c0) = Some go -> Forall (fun m => said s go m <> None) msgs ->
  exists before now rest, msgs = before ++ now ++ rest /\ length before = length (writer_sent (trace c0 es0)) /\
  written (sy_run frame (sy_start (after c0 es0) ch) hs) = map (said_frame s go) now.
Proof.
  intros L Mf Ha Hg Al. pose proof L as (W & O & T & Ec & _). pose proof (local_range ip c0 msgs es0 ch L) as R.
  destruct (sim_start ip c0 msgs es0 ch frame (st_local (c_state (after c0 es0))) L ltac:(lia)) as (S & F & Hch).
  destruct (sy_history ip ch (c_state c0) frame (after c0 es0) _ hs Hch F Mf S) as (es & El & _ & Oe & _).
  destruct (well_made_start ip c0 msgs W) as (Gd & T0 & _ & Wr & _).
  assert (O2 : orderly false (es0 ++ es)).
  { apply orderly_app. split; [exact O|]. pose proof (s_up _ _ _ _ (well_made_history ip c0 msgs es0 W O)) as U. rewrite T0 in U. rewrite <- U, T. exact Oe. }
  rewrite <- T0 in O2.
  destruct (writer_history ip c0 (es0 ++ es) msgs Gd Wr O2) as (dn & rest & E & F2 & _). rewrite T0 in O2.
  rewrite trace_app in F2. unfold writer_sent in F2. rewrite flat_map_app in F2.
  fold (writer_sent (trace c0 es0)) in F2. fold (writer_sent (trace (after c0 es0) es)) in F2.
  apply Forall2_app_inv_r in F2. destruct F2 as (d1 & d2 & F1 & F2 & ->).
  exists d1, d2, rest. split; [rewrite app_assoc; exact E|]. split; [apply (Forall2_len _ _ _ F1)|].
  unfold written. rewrite El. assert (Al2 : Forall (fun m => said s go m <> None) d2).
  { apply Forall_forall. intros m Im. rewrite Forall_forall in Al. apply Al. rewrite E. apply in_or_app. left. apply in_or_app. right. exact Im. }
  revert Al2 F2. clear - O2 W Ha Hg. intros Al2 F2. revert Al2. induction F2 as [|m b d2 bs Hm F2 IH]; intros Al2; [reflexivity|].
  cbn [flat_map map]. rewrite (IH (Forall_inv_tail Al2)). pose proof (Forall_inv Al2) as Sm.
  destruct Hm as (es1 & es2 & Ee & Em). rewrite Ee in O2. apply orderly_app in O2. destruct O2 as [O1 _].
  pose proof (well_made_history ip c0 msgs es1 W O1) as St. pose proof (s_good _ _ _ _ St) as (_ & _ & (Md & _ & _ & Hc & _) & _).
  pose proof (s_same _ _ _ _ St) as (_ & SA & SG).
  destruct (said s go m) as [w|] eqn:Ew; [|congruence].
  rewrite (said_encode _ s go m w) in Em by (congruence || exact Ew).
  unfold wire in Em. rewrite Md in Em. destruct (st_channel (c_state (after c0 es1))) as [ch1|]; [|congruence].
  assert (tunnelling_request ch1 (st_local (c_state (after c0 es1))) (said_frame s go m) = b) as <- by congruence.
  rewrite request_tunnelled. reflexivity.
Qed.

Lemma part_map {A B} (f : A -> B) : forall l b, part_of b (map f l) -> exists a, part_of a l /\ b = map f a.
Proof.
  induction l as [|x l IH]; intros b P; cbn [map] in P.
  - inversion P; subst. exists []. split; [constructor|reflexivity].
  - inversion P; subst.
    + exists []. split; [constructor|reflexivity].
    + destruct (IH _ ltac:(eassumption)) as (a & Pa & ->). exists a. split; [constructor; exact Pa|reflexivity].
    + match goal with H : part_of ?a (map f l) |- _ => destruct (IH _ H) as (a' & Pa & ->) end.
      exists (x :: a'). split; [constructor; exact Pa|reflexivity].
Qed.
Lemma part_in {A} (a b : list A) : part_of a b -> incl a b.
Proof. induction 1; intros y I; [destruct I|right; auto|destruct I as [<-|I]; [left; reflexivity|right; auto]]. Qed.
Lemma part_mid {A} (a now : list A) : forall before rest, part_of a now -> part_of a (before ++ now ++ rest).
Proof.
  intros before rest P. induction before as [|x b IH]; cbn; [|constructor; exact IH].
  induction P; cbn; constructor; assumption.
Qed.
Lemma upto_map n : upto (Z.of_nat n) = map Z.of_nat (seq 0 n).
Proof. unfold upto. rewrite Nat2Z.id. reflexivity. Qed.
(** What one telegram of a relaying gateway means. *)
Lemma relayed_meaning st tb l h s go s' go' sub frame k m : fits st -> built tb l h s -> st_assoc st = Some s -> st_gobj st = Some go ->
  Forall (fun m => exists w, said s' go' m = Some w /\ audible tb l h s go w) sub ->
  relays (map (said_frame s' go') sub) frame -> nth_error sub k = Some m ->
  exists w, said s' go' m = Some w /\ meaning st (frame (Z.of_nat k)) = Ok (heard tb l h s go w).
Proof.
  intros F B Ha Hg Al R Em.
  rewrite Forall_forall in Al. destruct (Al m (nth_error_In _ _ Em)) as (w & Ew & Au). exists w. split; [exact Ew|].
  pose proof (R k (said_frame s' go' m) (map_nth_error _ _ _ Em)) as C.
  destruct (said_says s' go' m w _ Ew (proj1 Au) C) as (O & t & Et & Sy).
  unfold meaning. rewrite (says_heard tb l h (st_set_remote 0 st) s go CNetIP _ t w B); try assumption.
  - unfold reported. cbn [st_medium st_set_remote]. rewrite (proj1 F). reflexivity.
  - split; [exact Ha|]. split; [exact Hg|]. split; [apply request_octets; exact O|]. split; [right; reflexivity|].
    unfold on_bus. cbn [st_medium st_set_remote]. rewrite (proj1 F), request_tunnelled. exact Et.
Qed.
(** What the first [n] telegrams of a relaying gateway mean. *)
Lemma relayed_meanings st tb l h s go s' go' sub frame n : fits st -> built tb l h s -> st_assoc st = Some s -> st_gobj st = Some go ->
  Forall (fun m => exists w, said s' go' m = Some w /\ audible tb l h s go w) sub ->
  relays (map (said_frame s' go') sub) frame -> 0 <= n <= zlen sub ->
  meanings st frame n = flat_map (fun m => match said s' go' m with Some w => heard tb l h s go w | None => [] end) (firstn (Z.to_nat n) sub).
Proof.
  intros F B Ha Hg Al R N. unfold meanings. rewrite <- (Z2Nat.id n) by lia. set (k := Z.to_nat n).
  assert (Hk : (k <= length sub)%nat) by (unfold k, zlen in *; lia). rewrite Nat2Z.id. clearbody k. clear N n.
  induction k as [|k IH]; [reflexivity|].
  rewrite Nat2Z.inj_succ, <- Z.add_1_r, upto_S by lia. rewrite flat_map_app, IH by lia. cbn [flat_map]. rewrite app_nil_r.
  destruct (nth_error sub k) as [m|] eqn:Em; [|apply nth_error_None in Em; lia].
  assert (firstn (S k) sub = firstn k sub ++ [m]) as ->.
  { rewrite <- Nat.add_1_r, firstn_S_nth. f_equal. clear -Em. revert k Em. induction sub as [|y t IHl]; intros [|k] E; try discriminate E.
    - injection E as ->. reflexivity.
    - cbn in *. apply IHl. exact E. }
  rewrite flat_map_app. cbn [flat_map]. rewrite app_nil_r. f_equal.
  destruct (relayed_meaning st tb l h s go s' go' sub frame k m F B Ha Hg Al R Em) as (w & Ew & M). rewrite Ew, M. reflexivity.
Qed.

Lemma part_firstn {A} (a b : list A) : part_of a b -> forall k, part_of (firstn k a) b.
Proof. induction 1 as [l|x a b P IH|x a b P IH]; intros k; [rewrite firstn_nil; constructor|constructor; apply IH|destruct k; cbn; constructor; apply IH]. Qed.
Lemma taken_nonneg ip c0 msgs es0 ch frame hs : linked ip c0 msgs es0 ch -> sendable frame ->
  0 <= client_taken (sy_run frame (sy_start (after c0 es0) ch) hs).
Proof.
  intros L M. pose proof (local_range ip c0 msgs es0 ch L) as Rg.
  destruct (sim_start ip c0 msgs es0 ch frame (st_local (c_state (after c0 es0))) L ltac:(lia)) as (S & F & Hch).
  destruct (sim_inv inb ip ch (c_state c0) frame hs Hch F M (fun x a h _ => inb_step x a h) _ _ S (inb_start _)) as (a & Sa & Ia).
  rewrite (m_taken _ _ _ _ _ _ Sa). apply Ia.
Qed.

(** ** Rounds of the writer *)
(** The list the writer has in hand, on a client that is connected. *)
Definition in_hand (c : client) (l : list message) : Prop :=
  c_connected c = true /\ (c_writer c = WWait l \/ c_writer c = WSend l).
Lemma round_up ip ch s0 frame s a m rest s1 go1 w : 0 <= ch < 256 -> fits s0 -> sendable frame -> sim ip ch s0 frame s a ->
  sy_down s = [] -> sy_up s = [] -> st_local (c_state (sy_client s)) = gw_taken (sy_gw s) mod 256 ->
  in_hand (sy_client s) (m :: rest) -> st_assoc s0 = Some s1 -> st_gobj s0 = Some go1 -> said s1 go1 m = Some w -> displayable m = true ->
  let s' := sy_run frame s [Turn; Arrive_up; Arrive_down] in
  (exists a', sim ip ch s0 frame s' a') /\
  sy_down s' = [] /\ sy_up s' = [] /\ st_local (c_state (sy_client s')) = gw_taken (sy_gw s') mod 256 /\
  in_hand (sy_client s') rest /\ gw_bus (sy_gw s') = gw_bus (sy_gw s) ++ [said_frame s1 go1 m].
Proof.
  intros Hch F Mf Sa D U El (Cn & Wr) Ha Hg Sd Dm s'. pose proof Sa as [].
  pose proof (m_good) as (La & Ip & (Md & _ & _ & _) & Ho & Pn).
  assert (Et : turned (sy_client s) = (WSend rest, [tunnelling_request ch (st_local (c_state (sy_client s))) (said_frame s1 go1 m)])).
  { unfold turned. assert (turn (sy_client s) (m :: rest) = (WSend rest, [tunnelling_request ch (st_local (c_state (sy_client s))) (said_frame s1 go1 m)])) as X.
    - cbn [turn]. rewrite repr_displayable, Dm. destruct m_same as (_ & SA & SG).
      rewrite (said_encode _ s1 go1 m w) by (congruence || exact Sd). unfold wire. rewrite Md, m_ch, m_trans. reflexivity.
    - destruct Wr as [-> | ->]; [rewrite Cn|]; exact X. }
  destruct (step_writer ip _ m_good) as (st1 & Ag & Es). rewrite Et in Es. cbn [fst snd] in Es.
  set (d := tunnelling_request ch (st_local (c_state (sy_client s))) (said_frame s1 go1 m)) in *.
  assert (Eu : sy_up (sy_step frame s Turn) = sy_up s ++ [d]).
  { cbn [sy_step]. unfold sy_client_event. rewrite Es. reflexivity. }
  assert (Ec : sy_client (sy_step frame s Turn) = mkclient (c_laddr (sy_client s)) (c_lport (sy_client s)) st1 (c_transport (sy_client s)) (c_connected (sy_client s)) (WSend rest) []).
  { cbn [sy_step]. unfold sy_client_event. rewrite Es. reflexivity. }
  symmetry in m_down, m_up. pose proof m_down as Xd. pose proof m_up as Xu. rewrite D in Xd. rewrite U in Xu. apply map_nil in Xd, Xu.
  destruct (turn_up ip ch s0 frame s a d _ (said_frame s1 go1 m) Hch F Mf Sa Eu (request_tunnelled _ _ _)) as (x & S1).
  pose proof (sim_step_fixed ip ch s0 frame _ _ Arrive_up Hch F Mf S1 ltac:(discriminate) (no_arrival _ _ _ Arrive_up ltac:(discriminate))) as S2.
  assert (Ao : acks_only a) by (unfold acks_only; rewrite Xd; constructor).
  pose proof (acks_only_takes s0 frame _ Arrive_down (acks_only_step None _ Arrive_up ltac:(discriminate) (acks_only_step (Some (Some (said_frame s1 go1 m), x)) a Turn ltac:(discriminate) Ao))) as T2.
  pose proof (sim_step_fixed ip ch s0 frame _ _ Arrive_down Hch F Mf S2 ltac:(discriminate) T2) as S3.
  assert (Hand : in_hand (sy_client s') rest).
  { unfold s', sy_run. cbn [fold_left]. set (t1 := sy_step frame s Turn) in *.
    assert (H1 : in_hand (sy_client t1) rest) by (rewrite Ec; split; [exact Cn|right; reflexivity]).
    set (t2 := sy_step frame t1 Arrive_up) in *. assert (H2 : sy_client t2 = sy_client t1).
    { unfold t2. cbn [sy_step]. destruct (sy_up t1) as [|y r]; [reflexivity|]. destruct (gw_receive (sy_gw t1) y). reflexivity. }
    rewrite <- H2 in H1. cbn [sy_step]. destruct (sy_down t2) as [|y r] eqn:Ed; [exact H1|].
    assert (Al : allowed (sy_client t2) (EvData y)).
    { split; [apply (SystemProofs.m_trans _ _ _ _ _ _ S2)|]. pose proof (SystemProofs.m_down _ _ _ _ _ _ S2) as Y. rewrite Ed in Y.
      destruct (a_down (astep None (astep (Some (Some (said_frame s1 go1 m), x)) a Turn) Arrive_up)) as [|[i|j] q]; try discriminate Y;
        apply (f_equal (hd [])) in Y; cbn [hd map down_dgram] in Y; rewrite Y; [apply request_octets; apply Mf|apply ack_octets]. }
    pose proof (step_facts ip _ _ (SystemProofs.m_good _ _ _ _ _ _ S2) Al) as Fc. unfold sy_client_event.
    destruct (client_step (sy_client t2) (EvData y)) as [c o]. cbn [sy_client fst snd] in *. destruct Fc. destruct H1 as [H1 H3].
    split; [rewrite f_conn, H1; reflexivity|rewrite f_writer; exact H3]. }
  change (sy_step frame (sy_step frame (sy_step frame s Turn) Arrive_up) Arrive_down) with s' in S3.
  pose proof (ex_intro (fun a' => sim ip ch s0 frame s' a') _ S3) as Ex.
  unfold astep at 1 in S3. cbn [astep a_up a_down items_of] in S3. rewrite Xd, Xu in S3.
  cbn [app a_down a_up a_k a_g a_r a_l a_dlv a_wr a_bp] in S3. rewrite m_l, m_r in El.
  rewrite El, Z.eqb_refl in S3. cbn [app a_down a_up a_k a_g a_r a_l a_dlv a_wr a_bp] in S3. rewrite El, Z.eqb_refl in S3.
  destruct S3. cbn [app a_down a_up a_k a_g a_r a_l a_dlv a_wr a_bp map] in *.
  split; [exact Ex|]. split; [assumption|]. split; [assumption|]. split; [rewrite m_l0, m_r0; lia|]. split; [exact Hand|].
  rewrite m_bus0, m_bus, map_app. f_equal.
  - apply map_ext_in. intros p Ip'. apply frame_at_app. rewrite Forall_forall in m_bp. auto.
  - cbn. unfold frame_at. rewrite app_nth2 by lia. rewrite Nat.sub_diag. reflexivity.
Qed.
Lemma rounds_up ip ch s0 frame s1 go1 : 0 <= ch < 256 -> fits s0 -> sendable frame -> st_assoc s0 = Some s1 -> st_gobj s0 = Some go1 ->
  forall msgs s, (exists a, sim ip ch s0 frame s a) -> sy_down s = [] -> sy_up s = [] -> st_local (c_state (sy_client s)) = gw_taken (sy_gw s) mod 256 ->
  in_hand (sy_client s) msgs -> Forall (fun m => said s1 go1 m <> None /\ displayable m = true) msgs ->
  gw_bus (sy_gw (sy_run frame s (concat (repeat [Turn; Arrive_up; Arrive_down] (length msgs))))) = gw_bus (sy_gw s) ++ map (said_frame s1 go1) msgs.
Proof.
  intros Hch F Mf Ha Hg. induction msgs as [|m msgs IH]; intros s (a & Sa) D U El Hd Al; [cbn; rewrite app_nil_r; reflexivity|].
  destruct (Forall_inv Al) as [Sm Dm]. destruct (said s1 go1 m) as [w|] eqn:Ew; [|congruence].
  destruct (round_up ip ch s0 frame s a m msgs s1 go1 w Hch F Mf Sa D U El Hd Ha Hg Ew Dm) as (E' & D' & U' & El' & Hd' & B').
  cbn [length repeat concat]. unfold sy_run in *. rewrite fold_left_app.
  rewrite (IH _ E' D' U' El' Hd' (Forall_inv_tail Al)), B', <- app_assoc. reflexivity.
Qed.
