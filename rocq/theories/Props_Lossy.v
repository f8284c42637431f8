(** C114: exactly which messages a lossy network keeps from the bus. *)
From Coq Require Import ZArith List Bool Lia.
From Verif Require Import Py Base Msg State Decode Client SpecMsg SpecWire SpecDecode SpecClient SpecSystem SpecLossy.
From Verif Require Import SystemProofs LossyProofs Props_Client Props_System.
Import ListNotations.
Open Scope Z_scope.

(** Whatever the fates of the messages and whatever telegrams are exchanged between
    them: the messages whose request arrives while the client does not lag reach
    the bus, the others do not; afterwards the tunnel is at rest, and the client's
    counter has moved once for every acknowledgement that arrived. *)
Theorem C114_arriving : forall ip c0 msgs es0 ch frame hs fs messages lag, linked ip c0 msgs es0 ch ->
  meaningful (c_state c0) frame ->
  let s := sy_run frame (sy_start (after c0 es0) ch) hs in
  at_rest lag s (st_local (c_state (sy_client s))) ->
  let s' := sy_run frame s (courses fs) in
  written s' = written s ++ messages -> zlen messages = count of_message fs ->
  gw_bus (sy_gw s') = gw_bus (sy_gw s) ++ arriving lag fs messages /\
  at_rest (fold_left lags_after fs lag) s' (st_local (c_state (sy_client s'))) /\
  st_local (c_state (sy_client s')) = (st_local (c_state (sy_client s)) + count confirmed fs) mod 256 /\
  client_taken s' = client_taken s + count of_bus fs.
Proof.
  intros ip c0 msgs es0 ch frame hs fs messages lag L Mf s (D & U & K & C) s' W Len. pose proof (local_range ip c0 msgs es0 ch L) as R.
  destruct (sim_start ip c0 msgs es0 ch frame (st_local (c_state (after c0 es0))) L ltac:(lia)) as (S & F & Hch).
  destruct (sim_inv (fun _ => True) ip ch (c_state c0) frame hs Hch F (meaningful_sendable _ _ Mf) (fun _ _ _ _ _ => I) _ _ S I) as (a & Sa & _).
  fold s in Sa. pose proof Sa as [].
  assert (Ra : rest_abs lag a).
  { rewrite D in m_down. rewrite U in m_up. symmetry in m_down, m_up. apply map_nil in m_down, m_up.
    split; [exact m_down|]. split; [exact m_up|]. split; [congruence|]. rewrite <- m_l, C, m_r. reflexivity. }
  destruct (all_courses ip ch (c_state c0) frame Hch F Mf fs lag s a messages Sa Ra W) as (a' & S' & (D' & U' & K' & L') & B & G & Lc).
  { unfold zlen, count in Len. lia. }
  split; [exact B|]. fold s' in S'. pose proof S' as [].
  split; [|split].
  - split; [rewrite m_down0, D'; reflexivity|]. split; [rewrite m_up0, U'; reflexivity|]. split; [congruence|].
    rewrite m_l0, m_r0. exact L'.
  - rewrite m_l0, Lc, m_l, Zplus_mod_idemp_l. reflexivity.
  - rewrite m_taken0, K', G, m_taken. destruct Ra as (_ & _ & Ka & _). lia.
Qed.
Print Assumptions C114_arriving.

(** One lost acknowledgement costs one message, the next whose request arrives: of
    [a + 1 + 1 + b] messages only the one after the lost acknowledgement is missing
    on the bus, and the client has counted it as acknowledged. *)
Theorem C114_one_lost : forall ip c0 msgs es0 ch frame hs before m next behind, linked ip c0 msgs es0 ch ->
  meaningful (c_state c0) frame ->
  let s := sy_run frame (sy_start (after c0 es0) ch) hs in
  at_rest false s (st_local (c_state (sy_client s))) ->
  let fs := repeat Fine (length before) ++ [Answer_lost; Fine] ++ repeat Fine (length behind) in
  let s' := sy_run frame s (courses fs) in
  written s' = written s ++ before ++ [m; next] ++ behind ->
  gw_bus (sy_gw s') = gw_bus (sy_gw s) ++ before ++ [m] ++ behind /\
  at_rest false s' (st_local (c_state (sy_client s'))) /\
  st_local (c_state (sy_client s')) = (st_local (c_state (sy_client s)) + zlen before + zlen behind + 1) mod 256.
Proof.
  intros ip c0 msgs es0 ch frame hs before m next behind L Mf s A fs s' W.
  assert (Cr : forall p n, count p (repeat Fine n) = if p Fine then Z.of_nat n else 0).
  { intros p n. unfold count. induction n as [|n IH]; [destruct (p Fine); reflexivity|]. cbn [repeat filter]. destruct (p Fine); cbn [length]; lia. }
  assert (Ca : forall p x y, count p (x ++ y) = count p x + count p y) by (intros p x y; unfold count; rewrite filter_app, app_length; lia).
  destruct (C114_arriving ip c0 msgs es0 ch frame hs fs (before ++ [m; next] ++ behind) false L Mf A W) as (B & R & C & _).
  { unfold fs. rewrite !Ca, !Cr. unfold zlen. rewrite !app_length. cbn. lia. }
  split; [|split].
  - fold s s' in B. rewrite B. f_equal. unfold fs. rewrite (arriving_app_fine (length before) _ before _ eq_refl). f_equal.
    cbn [app arriving lags_after]. rewrite (arriving_fine (length behind) behind eq_refl). reflexivity.
  - assert (Q : forall n b, fold_left lags_after (repeat Fine n) b = match n with O => b | _ => false end).
    { induction n as [|n IH]; intros b; [reflexivity|]. cbn [repeat fold_left lags_after]. rewrite IH. destruct n; reflexivity. }
    unfold fs in R at 1. rewrite !fold_left_app, !Q in R. cbn [fold_left lags_after] in R. destruct (length behind); exact R.
  - fold s s' in C. rewrite C. unfold fs. rewrite !Ca, !Cr. unfold zlen. f_equal. cbn. lia.
Qed.
Print Assumptions C114_one_lost.

(** A client that connects again with its counter at 255 (C67) lags from the
    start: the first message whose request arrives is counted as acknowledged and
    missing on the bus, those behind it arrive. *)
Theorem C114_again : forall ip c0 msgs es0 ch frame next behind, linked ip c0 msgs es0 ch ->
  meaningful (c_state c0) frame -> st_local (c_state (after c0 es0)) = 255 ->
  let s' := sy_run frame (sy_start (after c0 es0) ch) (courses (Fine :: repeat Fine (length behind))) in
  written s' = next :: behind ->
  gw_bus (sy_gw s') = behind /\ st_local (c_state (sy_client s')) = zlen behind mod 256.
Proof.
  intros ip c0 msgs es0 ch frame next behind L Mf E s' W.
  destruct (C114_arriving ip c0 msgs es0 ch frame [] (Fine :: repeat Fine (length behind)) (next :: behind) true L Mf) as (B & _ & C & _).
  - split; [reflexivity|]. split; [reflexivity|]. split; [reflexivity|]. cbn. exact E.
  - exact W.
  - unfold zlen, count. cbn [length filter of_message]. clear. induction behind as [|x r IH]; [reflexivity|]. cbn [length repeat filter of_message]. lia.
  - change (sy_run frame (sy_run frame (sy_start (after c0 es0) ch) []) (courses (Fine :: repeat Fine (length behind)))) with s' in B, C.
    split.
    + rewrite B. cbn [arriving lags_after]. rewrite (arriving_fine (length behind) behind eq_refl). reflexivity.
    + rewrite C. change (sy_run frame (sy_start (after c0 es0) ch) []) with (sy_start (after c0 es0) ch). cbn [sy_start sy_client]. rewrite E.
      assert (Q : count confirmed (Fine :: repeat Fine (length behind)) = 1 + zlen behind).
      { unfold zlen, count. cbn [length filter confirmed]. clear. induction behind as [|x r IH]; [reflexivity|]. cbn [length repeat filter confirmed] in *. lia. }
      rewrite Q. lia.
Qed.
Print Assumptions C114_again.
(** A client with two messages, telegrams of the bus between them.  The answer to
    the first is lost: the second is acknowledged, doubled even, and never reaches
    the bus.  The request of the first is lost: only that one is missing.  A
    client that connects again with its counter at 255. *)
Example C114_example : linked ex_ip ex_client ex_msgs [EvMade; EvData ex_accept] 0x15 /\ meaningful (c_state ex_client) ex_frames /\
  at_rest false ex_sys (st_local (c_state (sy_client ex_sys))) /\
  (let s' := sy_run ex_frames ex_sys (courses [From_bus; Answer_lost; From_bus; Twice]) in
   exists m n, written s' = written ex_sys ++ [m; n] /\ m <> n /\ zlen [m; n] = count of_message [From_bus; Answer_lost; From_bus; Twice] /\
   gw_bus (sy_gw s') = [m] /\ arriving false [From_bus; Answer_lost; From_bus; Twice] [m; n] = [m]) /\
  (let s' := sy_run ex_frames ex_sys (courses [Ask_lost; Fine]) in
   exists m n, written s' = [m; n] /\ gw_bus (sy_gw s') = [n]) /\
  (let s' := sy_run ex_frames ex_sys (courses (repeat Fine (length (@nil (list Z))) ++ [Answer_lost; Fine] ++ repeat Fine (length (@nil (list Z))))) in
   exists m n, written s' = written ex_sys ++ [] ++ [m; n] ++ [] /\ gw_bus (sy_gw s') = [m]) /\
  linked ex_ip ex_client ex_msgs (ex_again 255) 0x15 /\ st_local (c_state (after ex_client (ex_again 255))) = 255 /\
  (let s' := sy_run ex_frames (sy_start (after ex_client (ex_again 255)) 0x15) (courses (Fine :: repeat Fine 1)) in
   exists m n, written s' = [m; n] /\ gw_bus (sy_gw s') = [n]).
Proof.
  split; [exact ex_linked|]. split; [exact ex_meaningful|]. split; [repeat split; vm_compute; reflexivity|].
  split; [cbv zeta; do 2 eexists; split; [vm_compute; reflexivity|]; split; [discriminate|]; repeat split; vm_compute; reflexivity|].
  split; [cbv zeta; do 2 eexists; split; vm_compute; reflexivity|].
  split; [cbv zeta; do 2 eexists; split; vm_compute; reflexivity|].
  destruct C67_example as (_ & _ & _ & L & E & _). split; [exact L|]. split; [exact E|].
  cbv zeta; do 2 eexists; split; vm_compute; reflexivity.
Qed.
