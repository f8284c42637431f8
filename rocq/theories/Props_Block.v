(** C79, C80: exactly which telegrams stop a tunnel, and which lines end the
    reader of the USB client. *)
From Coq Require Import String Ascii ZArith List Bool Lia ZifyBool.
From Verif Require Import Py Base Msg Address Dpt Tables LData Inet State Encode Decode Client.
From Verif Require Import SpecMsg SpecTables SpecWire SpecDecode SpecClient SpecSystem SpecFail SpecBlock.
From Verif Require Import ClientProofs DeliveryProofs SystemProofs FailProofs BlockProofs.
From Verif Require Import Props_Tables Props_Encode Props_Decode Props_Client Props_System Props_Fail.
Import ListNotations.
Open Scope Z_scope.

(** ** C79 *)

(** A request that is due is taken and acknowledged exactly when its telegram is
    harmless; otherwise the exception is the one of [harmful] (SpecBlock.v), and
    nothing is sent or delivered. *)
Theorem C79_due : forall ip c msgs es d n cemi tb l h s go, well_made ip c msgs -> orderly false (es ++ [EvData d]) ->
  built tb l h s -> st_assoc (c_state c) = Some s -> st_gobj (c_state c) = Some go ->
  tunnelled d = Some (n, cemi) -> n = taken (st_remote (c_state c)) (trace c es) mod 256 ->
  let o := shown c es (EvData d) in
  (acked o = true <-> harmless tb l h s go cemi) /\
  (forall e, o_result o = Some (Err e) <-> harmful tb l h s go cemi e) /\
  (forall e, harmful tb l h s go cemi e -> o_sent o = [] /\ deliveries o = [] /\
    taken (st_remote (c_state c)) (trace c (es ++ [EvData d])) = taken (st_remote (c_state c)) (trace c es)).
Proof.
  intros ip c msgs es d n cemi tb l h s go W O B Ha Hg T En o.
  pose proof (C35_due ip c msgs es d n cemi W O T En) as X. pose proof (due_request ip c msgs es d n cemi W O T En) as Y. cbv zeta in X, Y. fold o in X, Y.
  pose proof (well_made_start ip c msgs W) as (_ & _ & _ & _ & F). pose proof F as (M & _).
  assert (Oc : octets cemi).
  { destruct (well_made_allowed ip c msgs es _ W O) as [_ Od]. apply (tunnelled_octets d n cemi Od T). }
  pose proof (fun e => meaning_error tb l h (c_state c) s go cemi e B M Ha Hg Oc) as ME.
  pose proof (harmless_meaning tb l h (c_state c) s go cemi B M Ha Hg Oc) as HM.
  destruct (meaning (c_state c) cemi) as [r|e0] eqn:Em.
  - destruct X as (Dl & (ch & _ & Sn) & Tk). destruct Y as (Er & _). assert (HL : harmless tb l h s go cemi) by (apply HM; eauto). split; [|split].
    + split; [intros _; exact HL|]. intros _. unfold acked. rewrite Sn. reflexivity.
    + intros e. split; [congruence|intros Hm; destruct (HL e Hm)].
    + intros e Hm. destruct (HL e Hm).
  - destruct X as (Er & Dl & Sn & Tk). assert (Hm : harmful tb l h s go cemi e0) by (apply ME; reflexivity). split; [|split].
    + split; [unfold acked; rewrite Sn; discriminate|]. intros HL. destruct (HL e0 Hm).
    + intros e. rewrite Er. split; [intros X; injection X as <-; exact Hm|]. intros X. apply ME in X. congruence.
    + intros e _. auto.
Qed.
Print Assumptions C79_due.
(** A harmful telegram stops the tunnel for good: whatever the network and the
    gateway do, repetitions included, neither it nor any later telegram is ever
    delivered, and the gateway counts at most one more than what came before
    (C65_counted_refuted). *)
Theorem C79_stopped : forall ip c0 msgs es0 ch frame n e hs tb l h s go, linked ip c0 msgs es0 ch -> sendable frame ->
  built tb l h s -> st_assoc (c_state c0) = Some s -> st_gobj (c_state c0) = Some go ->
  0 <= n -> harmful tb l h s go (frame n) e ->
  let y := sy_run frame (sy_start (after c0 es0) ch) hs in
  client_taken y <= n /\ gw_sent (sy_gw y) <= n + 1 /\ reports y = meanings (c_state c0) frame (client_taken y).
Proof.
  intros ip c0 msgs es0 ch frame n e hs tb l h s go L Sf B Ha Hg N Hm y. pose proof (local_range ip c0 msgs es0 ch L) as R.
  destruct (sim_start ip c0 msgs es0 ch frame (st_local (c_state (after c0 es0))) L ltac:(lia)) as (S & F & Hch).
  pose proof (proj2 (meaning_error tb l h (c_state c0) s go (frame n) e B (proj1 F) Ha Hg (Sf n)) Hm) as He.
  destruct (blocked_run ip ch (c_state c0) frame n e hs Hch F Sf He _ _ S (inb_start _) N) as (a & Sa & Ia & Ka). fold y in Sa.
  pose proof (C64_in_order ip c0 msgs es0 ch frame hs L Sf) as [Rp Gs]. cbv zeta in Rp, Gs. fold y in Rp, Gs.
  pose proof (m_taken _ _ _ _ _ _ Sa). split; [lia|]. split; [lia|exact Rp].
Qed.
Print Assumptions C79_stopped.
(** So telegram number [n] can be delivered exactly when it and all before it
    are harmless. *)
Theorem C79_delivered : forall ip c0 msgs es0 ch frame n tb l h s go, linked ip c0 msgs es0 ch -> sendable frame ->
  built tb l h s -> st_assoc (c_state c0) = Some s -> st_gobj (c_state c0) = Some go -> 0 <= n ->
  ((exists hs, n < client_taken (sy_run frame (sy_start (after c0 es0) ch) hs)) <->
   forall i, 0 <= i <= n -> harmless tb l h s go (frame i)).
Proof.
  intros ip c0 msgs es0 ch frame n tb l h s go L Sf B Ha Hg N.
  destruct (well_made_start ip c0 msgs (proj1 L)) as (_ & _ & _ & _ & F). split.
  - intros [hs K] i Hi e Hm. destruct (C79_stopped ip c0 msgs es0 ch frame i e hs tb l h s go L Sf B Ha Hg (proj1 Hi) Hm) as [X _]. lia.
  - intros Hl. exists (concat (repeat [Transmit; Arrive_down; Arrive_up] (Z.to_nat (n + 1)))).
    destruct (C64_rounds ip c0 msgs es0 ch frame [] (Z.to_nat (n + 1)) L Sf eq_refl eq_refl eq_refl) as (_ & _ & K & _).
    + intros i Hi. change (client_taken _) with 0 in Hi.
      apply (harmless_meaning tb l h (c_state c0) s go (frame i) B (proj1 F) Ha Hg (Sf i)). apply Hl. lia.
    + change (sy_run frame (sy_start (after c0 es0) ch) []) with (sy_start (after c0 es0) ch) in K. rewrite K. change (client_taken (sy_start (after c0 es0) ch)) with 0. lia.
Qed.
Print Assumptions C79_delivered.
(** Telegram 1 has an operation code without a name; the others are those of
    C64_example.  One is delivered, however often the gateway repeats the second;
    what the client writes still reaches the bus. *)
Definition ex_mixed (i : Z) : list Z := if i =? 1 then ex_poison else ex_frame.
Lemma ex_mixed_sendable : sendable ex_mixed.
Proof. intros i. unfold ex_mixed. destruct (i =? 1); vm_compute; octets_tac. Qed.
Lemma ex_harmful : harmful ex_table [] ex_calls ex_assoc ex_go ex_poison ValueError.
Proof.
  apply (meaning_error ex_table [] ex_calls ex_cst ex_assoc ex_go ex_poison ValueError ex_assoc_built eq_refl eq_refl eq_refl);
    [vm_compute; octets_tac|vm_compute; reflexivity].
Qed.
Example C79_example : linked ex_ip ex_client ex_msgs [EvMade; EvData ex_accept] 0x15 /\ sendable ex_mixed /\
  harmful ex_table [] ex_calls ex_assoc ex_go (ex_mixed 1) ValueError /\
  harmless ex_table [] ex_calls ex_assoc ex_go (ex_mixed 0) /\
  let y := sy_run ex_mixed ex_sys
    [Transmit; Arrive_down; Arrive_up; Transmit; Arrive_down; Transmit; Arrive_down; Turn; Arrive_up; Arrive_down; Transmit; Arrive_down] in
  client_taken y = 1 /\ gw_sent (sy_gw y) = 1 /\ reports y = ex_delivered /\ length (gw_bus (sy_gw y)) = 1%nat.
Proof.
  split; [exact ex_linked|]. split; [exact ex_mixed_sendable|]. split; [exact ex_harmful|].
  split; [|repeat split; vm_compute; reflexivity].
  apply (harmless_meaning ex_table [] ex_calls ex_cst ex_assoc ex_go ex_frame ex_assoc_built eq_refl eq_refl eq_refl);
    [vm_compute; octets_tac|eexists; vm_compute; reflexivity].
Qed.
(** A request that is cut off after the source address, one for a group that is
    in the table but not associated. *)
Example C79_causes :
  harmful ex_table [] ex_calls ex_assoc ex_go (firstn 6 ex_frame) IndexError /\
  exists s, built ex_table [] [] s /\
    harmful ex_table [] [] s ex_go [0x29; 0x00; 0xBC; 0xE0; 0x11; 0x02; 0x03; 0x00; 0x01; 0x00; 0x81] KeyError.
Proof.
  split.
  - apply Harm_cut. apply (cut_telegram ex_assoc data_ind 0 (firstn 4 (skipn 2 ex_frame))); [left; reflexivity|vm_compute; reflexivity].
  - destruct C24_unassociated_example as (s & B & L & V). exists s. split; [exact B|].
    apply Harm_unassociated with (k := Ind) (t := mktg 0xBC 0xE0 0x1102 0x0300 1 0 0x81 []) (svc := Write);
      [reflexivity|repeat split; discriminate || reflexivity|exact L|reflexivity|exact V].
Qed.

(** ** C80 *)

(** Every line that ends the reader of the USB client has one of the causes of
    [ends] (SpecBlock.v), and each of them does. *)
Theorem C80_lines : forall tb l h st s go line e,
  built tb l h s -> st_medium st = Usb_hid -> st_assoc st = Some s -> st_gobj st = Some go ->
  (line_result st line = Err e <-> ends tb l h st s go line e).
Proof. exact line_error. Qed.
Print Assumptions C80_lines.
Lemma until_ok {A} (l : list (res A)) : (forall x, In x l -> exists a, x = Ok a) -> until_failure l = l.
Proof.
  induction l as [|x l IH]; intros H; [reflexivity|]. destruct (H x (or_introl eq_refl)) as [a ->]. cbn. f_equal. apply IH. intros y I. apply H. right. exact I.
Qed.
Lemma until_err {A} (l : list (res A)) e r : (forall x, In x l -> exists a, x = Ok a) -> until_failure (l ++ Err e :: r) = l ++ [Err e].
Proof.
  induction l as [|x l IH]; intros H; [reflexivity|]. destruct (H x (or_introl eq_refl)) as [a ->]. cbn. f_equal. apply IH. intros y I. apply H. right. exact I.
Qed.
(** With the writer's turns in between as they may come: lines without such a
    cause are all reported, each with its own result ... *)
Theorem C80_alive : forall tb l h st s go msgs es, st_medium st = Usb_hid -> Forall (fun m => is_ack_message m = false) msgs ->
  built tb l h s -> st_assoc st = Some s -> st_gobj st = Some go ->
  (forall line e, In line (usb_lines es) -> ~ ends tb l h st s go line e) ->
  usb_reads (snd (usb_run (usb_new st msgs) es)) = map (line_result st) (usb_lines es) /\
  forall r, In r (usb_reads (snd (usb_run (usb_new st msgs) es))) -> exists data, r = Ok data.
Proof.
  intros tb l h st s go msgs es M N B Ha Hg Al.
  assert (X : forall x, In x (map (line_result st) (usb_lines es)) -> exists a, x = Ok a).
  { intros x I. apply in_map_iff in I. destruct I as (line & <- & I). destruct (line_result st line) as [a|e] eqn:E; [eauto|].
    apply (line_error tb l h st s go line e B M Ha Hg) in E. destruct (Al line e I E). }
  rewrite (C53_reads st msgs es M N), until_ok by exact X. split; [reflexivity|exact X].
Qed.
Print Assumptions C80_alive.
(** ... and the first line with one is the last that is read. *)
Theorem C80_ended : forall tb l h st s go msgs es before line later e, st_medium st = Usb_hid -> Forall (fun m => is_ack_message m = false) msgs ->
  built tb l h s -> st_assoc st = Some s -> st_gobj st = Some go ->
  usb_lines es = before ++ line :: later ->
  (forall x e, In x before -> ~ ends tb l h st s go x e) -> ends tb l h st s go line e ->
  usb_reads (snd (usb_run (usb_new st msgs) es)) = map (line_result st) before ++ [Err e].
Proof.
  intros tb l h st s go msgs es before line later e M N B Ha Hg El Al En.
  rewrite (C53_reads st msgs es M N), El, map_app. cbn [map]. apply (line_error tb l h st s go line e B M Ha Hg) in En. rewrite En.
  apply until_err. intros x I. apply in_map_iff in I. destruct I as (y & <- & I). destruct (line_result st y) as [a|e'] eqn:E; [eauto|].
  apply (line_error tb l h st s go y e' B M Ha Hg) in E. destruct (Al y e' I E).
Qed.
Print Assumptions C80_ended.
(** Text that is no hexadecimal; a report that ends too early, and the empty
    string that stands for the end of the file; a write whose second receiver is
    a clima object, which decode_msg alone does not notice. *)
Definition ex_st2 : state := state_new Usb_hid (Some ex_assoc) (Some (rev ex_go)).
Example C80_example :
  let f line := ends ex_table [] ex_calls ex_st2 ex_assoc (rev ex_go) line in
  f ("0113zz" ++ newline)%string ValueError /\
  f ("01130" ++ newline)%string IndexError /\ f ""%string IndexError /\
  receivers ex_table [] ex_calls 0x0900 (rev ex_go) = [(mkasap 1 None, Switch); (mkasap 3 None, InfoClimaReport)] /\
  (forall e, ~ failure ex_table [] ex_calls ex_st2 ex_assoc (rev ex_go) (ex_usb ex_poison) e) /\
  f (ex_line (ex_usb ex_poison)) ValueError /\
  (forall e, ~ f (ex_line (ex_usb ex_frame)) e).
Proof.
  cbv zeta.
  assert (F : forall line e, line_result ex_st2 line = Err e -> ends ex_table [] ex_calls ex_st2 ex_assoc (rev ex_go) line e).
  { intros line e E. apply (line_error ex_table [] ex_calls ex_st2 ex_assoc (rev ex_go) line e ex_assoc_built eq_refl eq_refl eq_refl). exact E. }
  split; [apply F; vm_compute; reflexivity|]. split; [apply F; vm_compute; reflexivity|]. split; [apply F; vm_compute; reflexivity|].
  split; [vm_compute; reflexivity|]. split; [|split; [apply F; vm_compute; reflexivity|]].
  - intros e X.
    apply (decode_failure ex_table [] ex_calls ex_st2 ex_assoc (rev ex_go) CUsbHid (ex_usb ex_poison) e ex_assoc_built eq_refl eq_refl ltac:(vm_compute; octets_tac) (or_introl eq_refl)) in X.
    vm_compute in X. discriminate X.
  - intros e X. apply (line_error ex_table [] ex_calls ex_st2 ex_assoc (rev ex_go) _ e ex_assoc_built eq_refl eq_refl eq_refl) in X. vm_compute in X. discriminate X.
Qed.
Example C80_reading :
  let es := [UvLine (ex_line (ex_usb ex_frame)); UvWriter; UvLine ("01130" ++ newline)%string; UvLine (ex_line (ex_usb ex_frame))] in
  usb_lines es = [ex_line (ex_usb ex_frame)] ++ ("01130" ++ newline)%string :: [ex_line (ex_usb ex_frame)] /\
  length (usb_reads (snd (usb_run (usb_new ex_st2 (firstn 2 ex_msgs)) es))) = 2%nat.
Proof. split; vm_compute; reflexivity. Qed.
