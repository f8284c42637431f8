(** Proofs about the client and a gateway over a network (C64-C67). *)
From Coq Require Import String Ascii ZArith List Bool Lia ZifyBool Sorting.Sorted.
From Verif Require Import Py Base Msg Address Dpt Tables LData Inet State Encode Decode Client.
From Verif Require Import SpecMsg SpecTables SpecWire SpecDecode SpecClient SpecSystem.
From Verif Require Import MsgProofs TablesProofs AssocProofs EncodeProofs DecodeProofs SimProofs IpProofs OctetsProofs ClientProofs DeliveryProofs.
From Verif Require Import Props_Encode Props_Decode.
Import ListNotations.
Open Scope Z_scope.

(** ** The system with true numbers instead of counters modulo 256 *)
Inductive down_item := DReq (i : Z) | DAck (j : Z).
Inductive up_item := UReq (p : nat) (j : Z) (cemi : list Z) | UAck (v : Z) | UJunk (d : list Z).
Record abs := mkabs {
  a_g : Z; a_r : Z; a_k : Z; a_l : Z;
  a_down : list down_item; a_up : list up_item;
  a_dlv : list Z;                      (* numbers of the telegrams delivered *)
  a_wr : list (Z * list Z);            (* requests written: counter, frame *)
  a_bp : list nat                      (* positions of those on the bus *)
}.
Definition items_of (a : abs) (x : option (option (list Z) * list Z)) : list up_item :=
  match x with
  | None => []
  | Some (Some cemi, _) => [UReq (length (a_wr a)) (a_l a) cemi]
  | Some (None, d) => [UJunk d]
  end.
Definition astep (x : option (option (list Z) * list Z)) (a : abs) (h : happening) : abs :=
  let with_down d := mkabs (a_g a) (a_r a) (a_k a) (a_l a) d (a_up a) (a_dlv a) (a_wr a) (a_bp a) in
  let with_up u := mkabs (a_g a) (a_r a) (a_k a) (a_l a) (a_down a) u (a_dlv a) (a_wr a) (a_bp a) in
  match h with
  | Transmit => with_down (a_down a ++ [DReq (a_g a)])
  | Arrive_down =>
      match a_down a with
      | [] => a
      | DReq i :: q =>
          if i mod 256 =? a_k a mod 256 then
            mkabs (a_g a) (a_r a) (a_k a + 1) (a_l a) q (a_up a ++ [UAck (a_k a)]) (a_dlv a ++ [i]) (a_wr a) (a_bp a)
          else if a_k a mod 256 =? i mod 256 + 1 then
            mkabs (a_g a) (a_r a) (a_k a) (a_l a) q (a_up a ++ [UAck (a_k a)]) (a_dlv a) (a_wr a) (a_bp a)
          else with_down q
      | DAck j :: q =>
          mkabs (a_g a) (a_r a) (a_k a) (if j mod 256 =? a_l a mod 256 then a_l a + 1 else a_l a) q (a_up a) (a_dlv a) (a_wr a) (a_bp a)
      end
  | Arrive_up =>
      match a_up a with
      | [] => a
      | UAck v :: q =>
          mkabs (if v mod 256 =? a_g a mod 256 then a_g a + 1 else a_g a) (a_r a) (a_k a) (a_l a) (a_down a) q (a_dlv a) (a_wr a) (a_bp a)
      | UReq p j cemi :: q =>
          if j mod 256 =? a_r a mod 256 then
            mkabs (a_g a) (a_r a + 1) (a_k a) (a_l a) (a_down a ++ [DAck (a_r a)]) q (a_dlv a) (a_wr a) (a_bp a ++ [p])
          else if j mod 256 =? (a_r a - 1) mod 256 then
            mkabs (a_g a) (a_r a) (a_k a) (a_l a) (a_down a ++ [DAck (a_r a - 1)]) q (a_dlv a) (a_wr a) (a_bp a)
          else with_up q
      | UJunk d :: q => with_up q
      end
  | Turn =>
      mkabs (a_g a) (a_r a) (a_k a) (a_l a) (a_down a) (a_up a ++ items_of a x) (a_dlv a)
            (a_wr a ++ match x with Some (Some cemi, _) => [(a_l a, cemi)] | _ => [] end) (a_bp a)
  | Lose_down n => with_down (lose n (a_down a))
  | Lose_up n => with_up (lose n (a_up a))
  | Repeat_down n => with_down (again n (a_down a))
  | Repeat_up n => with_up (again n (a_up a))
  end.

Definition down_dgram (ch : Z) (frame : Z -> list Z) (x : down_item) : list Z :=
  match x with DReq i => tunnelling_request ch i (frame i) | DAck j => tunnelling_ack ch j 0 end.
Definition up_dgram (ch : Z) (x : up_item) : list Z :=
  match x with UReq _ j cemi => tunnelling_request ch j cemi | UAck v => tunnelling_ack ch v 0 | UJunk d => d end.
(** Neither a request nor an acknowledgement. *)
Definition junk (d : list Z) : Prop :=
  forall service r, ip_service d = Some (service, r) -> service <> 0x0420 /\ service <> 0x0421.

(** ** The client's encodings that are no requests *)
Lemma encode_no_ack m st b r : fits st -> is_ack_message m = false ->
  fst (encode_msg m st) = Ok b -> ip_service b <> Some (0x0421, r).
Proof.
  intros (M & A & G & C & _) N E S.
  destruct (link_request m) eqn:L.
  { destruct (request_cemi m st L) as [x H]. specialize (H Knxnet_ip).
    assert (on_medium Knxnet_ip st = st) as X by (destruct st; cbn in M; subst; reflexivity).
    rewrite X in H. rewrite H in E. destruct x as [cemi|]; [|discriminate E]. cbn [rbind] in E.
    unfold wire in E. rewrite M in E. destruct (st_channel st) as [ch|]; [|discriminate E]. injection E as <-. discriminate S. }
  destruct m; try discriminate L; try discriminate N; try discriminate E; cbn [encode_msg] in E.
  - unfold e_connect_req, mbind, mlift, mret in E. destruct (inet_aton _); [|discriminate E]. destruct (inet_aton _); [|discriminate E].
    cbv zeta in E. injection E as <-. apply header_service in S. discriminate S.
  - unfold e_connectionstate_req, e_channel_req, channel_id, mbind, mlift, mret, mget in E. destruct (inet_aton _); [|discriminate E].
    destruct (st_channel st); [|discriminate E]. cbn [need] in E. injection E as <-. apply header_service in S. discriminate S.
  - unfold e_disconnect_req, e_channel_req, channel_id, mbind, mlift, mret, mget in E. destruct (inet_aton _); [|discriminate E].
    destruct (st_channel st); [|discriminate E]. cbn [need] in E. injection E as <-. apply header_service in S. discriminate S.
  - unfold e_search_req, mbind, mlift, mret in E. destruct (inet_aton _); [|discriminate E].
    injection E as <-. apply header_service in S. discriminate S.
  - destruct (st_assoc st) as [s|] eqn:Ha; [|congruence]. destruct (st_gobj st) as [g|] eqn:Hg; [|congruence].
    destruct (type_of g (asap_value a)) as [c|] eqn:Ht.
    + change (fst (encode_msg (MGroupValueWriteInd a d) st) = Ok b) in E. rewrite (write_ind_frame st s g a d c Ha Hg Ht) in E.
      destruct (sends_to s a) as [[|x l]|]; [| |discriminate E]; injection E as <-; discriminate S.
    + change (fst (encode_msg (MGroupValueWriteInd a d) st) = Ok b) in E. rewrite (proj2 (write_no_type st g a d Hg Ht)) in E. discriminate E.
Qed.

(** What one turn of the writer sends: nothing, a request, or something else. *)
Lemma turn_at_most_one c : snd (turned c) = [] \/ exists b, snd (turned c) = [b].
Proof.
  unfold turned. assert (X : forall l, snd (turn c l) = [] \/ exists b, snd (turn c l) = [b]).
  { intros [|m l]; [left; reflexivity|]. cbn [turn]. destruct (message_repr m); [|left; reflexivity].
    destruct (fst (encode_msg m (c_state c))) as [b|]; [|left; reflexivity]. destruct (c_transport c); [right; exists b; reflexivity|left; reflexivity]. }
  destruct (c_writer c); auto. destruct (c_connected c); auto.
Qed.
Lemma turn_items ip c ch : good ip c -> st_channel (c_state c) = Some ch ->
  exists x : option (option (list Z) * list Z),
  snd (turned c) = match x with
                   | None => []
                   | Some (Some cemi, _) => [tunnelling_request ch (st_local (c_state c)) cemi]
                   | Some (None, d) => [d]
                   end /\
  match x with Some (None, d) => junk d | _ => True end.
Proof.
  intros Gd Ec. pose proof Gd as (_ & _ & F & _ & P). destruct (turn_at_most_one c) as [E|[b E]].
  { exists None. split; [exact E|exact I]. }
  destruct (turned_sent c b) as (m & Im & Em); [rewrite E; left; reflexivity|].
  rewrite Forall_forall in P. specialize (P m Im).
  destruct (ip_service b) as [[service r]|] eqn:S.
  2: { exists (Some (None, b)). split; [exact E|]. intros s r X. congruence. }
  destruct (Z.eq_dec service 0x0420) as [->|N].
  - destruct (encode_service m _ b r F P Em S) as (ch' & cemi & Ec' & ->). assert (ch' = ch) by congruence. subst ch'.
    exists (Some (Some cemi, [])). split; [exact E|exact I].
  - exists (Some (None, b)). split; [exact E|]. intros s r' X. rewrite S in X. injection X as <- <-. split; [exact N|].
    intros ->. apply (encode_no_ack m _ b r F P Em S).
Qed.

(** ** Datagrams *)
Lemma ack_congruent ch i j sta : i mod 256 = j mod 256 -> tunnelling_ack ch i sta = tunnelling_ack ch j sta.
Proof. intros E. unfold tunnelling_ack. rewrite E. reflexivity. Qed.
Lemma ack_service ch n sta : ip_service (tunnelling_ack ch n sta) = Some (0x0421, [0; 10; 4; ch mod 256; n mod 256; sta mod 256]).
Proof. reflexivity. Qed.
Lemma request_service ch n cemi : ip_service (tunnelling_request ch n cemi) =
  Some (0x0420, be 2 (10 + zlen cemi) ++ [0x04; ch mod 256; n mod 256; 0] ++ cemi).
Proof. reflexivity. Qed.
Lemma request_tail ch n cemi : exists x y, ip_service (tunnelling_request ch n cemi) =
  Some (0x0420, x :: y :: 4 :: ch mod 256 :: n mod 256 :: 0 :: cemi).
Proof. eexists _, _. rewrite request_service. cbn [be app]. reflexivity. Qed.
Lemma request_plain ch n cemi : connect_answer (tunnelling_request ch n cemi) = false /\
  (forall l, local_after (tunnelling_request ch n cemi) l = l) /\ (forall o, channel_after (tunnelling_request ch n cemi) o = o).
Proof. repeat split. Qed.
Lemma ack_plain ch n sta : connect_answer (tunnelling_ack ch n sta) = false /\ tunnelled (tunnelling_ack ch n sta) = None /\
  (forall l, local_after (tunnelling_ack ch n sta) l = if n mod 256 =? l then (l + 1) mod 256 else l) /\
  (forall o, channel_after (tunnelling_ack ch n sta) o = o).
Proof. repeat split. Qed.
Lemma junk_tunnelled d : junk d -> tunnelled d = None.
Proof.
  intros J. unfold tunnelled. destruct d as [|h [|v [|s1 [|s2 [|l1 [|l2 [|sz [|ch' [|ct [|sta r]]]]]]]]]]; try reflexivity.
  destruct (h =? 6) eqn:E1; [|reflexivity]. destruct (v =? 16) eqn:E2; [|reflexivity].
  destruct (s1 =? 4) eqn:E3; [|reflexivity]. destruct (s2 =? 32) eqn:E4; [|reflexivity].
  exfalso. unfold junk in J. cbn [ip_service] in J. rewrite E1, E2 in J. cbn [andb] in J.
  destruct (J (256 * s1 + s2) _ eq_refl) as [X _]. apply X. lia.
Qed.

(** ** The client, one datagram *)
Lemma due_step ip c ch s0 i cemi l : good ip c -> c_transport c = true -> st_channel (c_state c) = Some ch -> fits s0 ->
  same_tables s0 (c_state c) -> octets cemi -> i mod 256 = st_remote (c_state c) -> meaning s0 cemi = Ok l ->
  let o := snd (client_step c (EvData (tunnelling_request ch i cemi))) in
  deliveries o = l /\ o_sent o = [tunnelling_ack ch i 0].
Proof.
  intros Gd T Ec F0 Sm Oc En Hm o. pose proof Gd as (_ & _ & F & _).
  set (d := tunnelling_request ch i cemi) in *. assert (Od : octets d) by (apply request_octets; exact Oc).
  assert (Ht : tunnelled d = Some (i mod 256, cemi)) by apply request_tunnelled.
  pose proof (step_taken ip c d _ cemi Gd T Od Ht En) as X. cbv zeta in X.
  rewrite (decode_meaning d _ cemi s0 (c_state c) Od Ht F0 F Sm En), Hm in X. cbn [rbind] in X.
  destruct X as (_ & ch' & Ec' & X). unfold o. rewrite X. cbn [snd].
  assert (ch' = ch) as ->.
  { destruct (C31_netip d (c_state c) Od (proj1 F)) as (_ & _ & _ & C1). rewrite Ec' in C1. unfold d in C1.
    rewrite (proj2 (proj2 (request_plain ch i cemi))) in C1. congruence. }
  split.
  - unfold deliveries. cbn [o_result filter bus_message]. apply filter_bus. apply (meaning_bus s0 cemi); assumption.
  - cbn. f_equal. apply ack_congruent. apply Zmod_mod.
Qed.
Lemma undue_step ip c ch i cemi : good ip c -> c_transport c = true -> st_channel (c_state c) = Some ch ->
  octets cemi -> i mod 256 <> st_remote (c_state c) ->
  let o := snd (client_step c (EvData (tunnelling_request ch i cemi))) in
  deliveries o = [] /\
  o_sent o = if st_remote (c_state c) =? i mod 256 + 1 then [tunnelling_ack ch (st_remote (c_state c)) 0] else [].
Proof.
  intros Gd T Ec Oc En o. set (d := tunnelling_request ch i cemi) in *. assert (Od : octets d) by (apply request_octets; exact Oc).
  destruct (step_refused ip c d _ cemi Gd T Od (request_tunnelled ch i cemi) En) as (ch' & Ec' & X).
  assert (ch' = ch) as -> by congruence. unfold o. rewrite X. split; reflexivity.
Qed.
Lemma ack_step ip c ch j : good ip c -> c_transport c = true ->
  let o := snd (client_step c (EvData (tunnelling_ack ch j 0))) in deliveries o = [] /\ o_sent o = [].
Proof.
  intros Gd T o. destruct (ack_plain ch j 0) as (A & B & _).
  destruct (step_other ip c (tunnelling_ack ch j 0) Gd (ack_octets ch j 0) A B) as [X Y]. unfold o. rewrite Y. split; [|reflexivity].
  unfold deliveries. cbn [snd o_result]. destruct (fst (decode_msg CNetIP (tunnelling_ack ch j 0) (c_state c))) as [[l| |l]|e]; try reflexivity.
  apply filter_none. revert X. apply Forall_impl. intros m H. destruct m; assumption || contradiction.
Qed.

(** ** The simulation *)
Definition delivered_of (s0 : state) (frame : Z -> list Z) (i : Z) : list message :=
  match meaning s0 (frame i) with Ok m => m | Err _ => [] end.
Definition frame_at (wr : list (Z * list Z)) (p : nat) : list Z := snd (nth p wr (0, [])).
Record sim (ip : list Z) (ch : Z) (s0 : state) (frame : Z -> list Z) (s : system) (a : abs) : Prop := {
  m_good : good ip (sy_client s);
  m_trans : c_transport (sy_client s) = true;
  m_ch : st_channel (c_state (sy_client s)) = Some ch;
  m_same : same_tables s0 (c_state (sy_client s));
  m_k : st_remote (c_state (sy_client s)) = a_k a mod 256;
  m_l : st_local (c_state (sy_client s)) = a_l a mod 256;
  m_gch : gw_channel (sy_gw s) = ch;
  m_g : gw_sent (sy_gw s) = a_g a;
  m_r : gw_taken (sy_gw s) = a_r a;
  m_bus : gw_bus (sy_gw s) = map (frame_at (a_wr a)) (a_bp a);
  m_down : sy_down s = map (down_dgram ch frame) (a_down a);
  m_up : sy_up s = map (up_dgram ch) (a_up a);
  m_item : Forall (fun u => match u with
                            | UJunk d => junk d
                            | UReq p j cemi => nth_error (a_wr a) p = Some (j, cemi)
                            | UAck _ => True end) (a_up a);
  m_bp : Forall (fun p => (p < length (a_wr a))%nat) (a_bp a);
  m_dlv : reports s = flat_map (delivered_of s0 frame) (a_dlv a);
  m_taken : client_taken s = a_k a;
  m_wr : written s = map snd (a_wr a)
}.

Lemma map_lose {A B} (f : A -> B) n l : map f (lose n l) = lose n (map f l).
Proof. unfold lose. rewrite map_app, firstn_map, skipn_map. reflexivity. Qed.
Lemma map_again {A B} (f : A -> B) n l : map f (again n l) = again n (map f l).
Proof. unfold again. rewrite !map_app, skipn_map, !firstn_map. reflexivity. Qed.
Lemma skipn_tail {A} n : forall l : list A, skipn (S n) l = tl (skipn n l).
Proof. induction n as [|n IH]; intros [|x l]; try reflexivity. cbn [skipn]. rewrite <- IH. reflexivity. Qed.
Lemma lose_incl {A} n (l : list A) : incl (lose n l) l.
Proof.
  intros x I. unfold lose in I. rewrite skipn_tail in I. apply in_app_or in I. rewrite <- (firstn_skipn n l). apply in_or_app. destruct I as [I|I]; [left; exact I|].
  right. destruct (skipn n l); [exact I|right; exact I].
Qed.
Lemma again_incl {A} n (l : list A) : incl (again n l) l.
Proof.
  intros x I. unfold again in I. rewrite <- (firstn_skipn n l). apply in_or_app. apply in_app_or in I. destruct I as [I|I]; [auto|].
  right. apply in_app_or in I. destruct I as [I|I]; [|exact I]. set (q := skipn n l) in *. destruct q; cbn in I; [contradiction|].
  destruct I as [<-|[]]. left. reflexivity.
Qed.
Lemma incl_Forall' {A} (P : A -> Prop) l l' : incl l' l -> Forall P l -> Forall P l'.
Proof. intros I. rewrite !Forall_forall. auto. Qed.
Lemma nth_error_snoc {A} (l : list A) x p y : nth_error l p = Some y -> nth_error (l ++ [x]) p = Some y.
Proof. intros E. rewrite nth_error_app1; [exact E|]. apply nth_error_Some. congruence. Qed.
Lemma frame_at_app wr w p : (p < length wr)%nat -> frame_at (wr ++ w) p = frame_at wr p.
Proof. intros L. unfold frame_at. rewrite app_nth1 by exact L. reflexivity. Qed.

Lemma reports_snoc g c d u log e o : reports (mksys g c d u (log ++ [(e, o)])) = flat_map (fun x => deliveries (snd x)) log ++ deliveries o.
Proof. unfold reports. cbn [sy_log]. rewrite flat_map_app. cbn. rewrite app_nil_r. reflexivity. Qed.
Lemma taken_snoc' g c d u log e o : client_taken (mksys g c d u (log ++ [(e, o)])) = taken_step (taken 0 log) (e, o).
Proof. unfold client_taken, taken. cbn [sy_log]. rewrite fold_left_app. reflexivity. Qed.
Lemma written_snoc g c d u log e o : written (mksys g c d u (log ++ [(e, o)])) =
  flat_map (fun d => match tunnelled d with Some (_, cemi) => [cemi] | None => [] end) (writer_sent log) ++
  flat_map (fun d => match tunnelled d with Some (_, cemi) => [cemi] | None => [] end) (match e with EvWriter => o_sent o | _ => [] end).
Proof. unfold written, writer_sent. cbn [sy_log]. rewrite !flat_map_app. cbn [flat_map fst snd]. rewrite app_nil_r. reflexivity. Qed.

(** The request that arrives, if it is due, means something. *)
Definition takes (s0 : state) (frame : Z -> list Z) (a : abs) (h : happening) : Prop :=
  h = Arrive_down -> forall i q, a_down a = DReq i :: q -> i mod 256 = a_k a mod 256 -> exists l, meaning s0 (frame i) = Ok l.
Lemma meaningful_sendable s0 frame : meaningful s0 frame -> sendable frame.
Proof. intros Mf i. apply Mf. Qed.
Lemma meaningful_takes s0 frame a h : meaningful s0 frame -> takes s0 frame a h.
Proof. intros Mf _ i q _ _. apply Mf. Qed.
Lemma sim_step_taken ip ch s0 frame s a h : 0 <= ch < 256 -> fits s0 -> sendable frame -> sim ip ch s0 frame s a -> takes s0 frame a h ->
  exists x, match x with Some (None, d) => junk d | _ => True end /\ sim ip ch s0 frame (sy_step frame s h) (astep x a h).
Proof.
  intros Hch F0 Mf [] Tk.
  destruct h as [| | | |n|n|n|n].
  - (* Transmit *)
    exists None. split; [exact I|]. constructor; try assumption. cbn. rewrite map_app, m_down0. cbn. rewrite m_gch0, m_g0. reflexivity.
  - (* Arrive_down *)
    exists None. split; [exact I|]. unfold sy_step, astep. destruct (a_down a) as [|[i|j] q] eqn:Eq; cbn [map] in m_down0; rewrite m_down0.
    { constructor; try assumption. rewrite Eq. exact m_down0. }
    + cbn [down_dgram] in *. pose proof (Mf i) as Oc. set (d := tunnelling_request ch i (frame i)) in *.
      assert (Al : allowed (sy_client s) (EvData d)) by (split; [exact m_trans0|apply request_octets; exact Oc]).
      pose proof (step_facts ip _ _ m_good0 Al) as FX. pose proof (fun l => due_step ip (sy_client s) ch s0 i (frame i) l m_good0 m_trans0 m_ch0 F0 m_same0 Oc) as Du.
      pose proof (undue_step ip (sy_client s) ch i (frame i) m_good0 m_trans0 m_ch0 Oc) as Un. fold d in Du, Un.
      unfold sy_client_event. destruct (client_step (sy_client s) (EvData d)) as [c1 o]. cbn [fst snd] in *. cbv zeta in Du, Un.
      destruct FX. specialize (f_remote (a_k a) m_k0).
      assert (St : taken_step (a_k a) (EvData d, o) = if (i mod 256 =? a_k a mod 256) && acked o then a_k a + 1 else a_k a) by reflexivity.
      rewrite St in f_remote. rewrite m_k0 in *. cbn [local_step channel_step up_step] in *.
      rewrite (proj1 (proj2 (request_plain ch i (frame i)))) in f_local. rewrite (proj2 (proj2 (request_plain ch i (frame i)))) in f_channel.
      assert (Sm : same_tables s0 (c_state c1)) by (apply (same_trans _ (c_state (sy_client s))); assumption).
      destruct (i mod 256 =? a_k a mod 256) eqn:E1.
      * destruct (Tk eq_refl i q Eq ltac:(lia)) as [l Hl]. destruct (Du l ltac:(lia) Hl) as [Dl Ds]. assert (acked o = true) as Ak by (unfold acked; rewrite Ds; reflexivity).
        rewrite Ak in *. cbn [andb] in *.
        constructor; cbn [sy_client sy_gw sy_down sy_up a_k a_l a_g a_r a_bp a_wr a_down a_up a_dlv]; try assumption; try congruence.
        -- rewrite map_app, m_up0, Ds. cbn. f_equal. f_equal. apply ack_congruent. lia.
        -- apply Forall_app. split; [assumption|]. repeat constructor.
        -- rewrite reports_snoc, flat_map_app, Dl. cbn. rewrite app_nil_r. unfold delivered_of at 2. rewrite Hl. f_equal. exact m_dlv0.
        -- rewrite taken_snoc'. fold (client_taken s). rewrite m_taken0, St. reflexivity.
        -- rewrite written_snoc. cbn [flat_map]. rewrite app_nil_r. exact m_wr0.
      * destruct (Un ltac:(lia)) as [Dl Ds]. cbn [andb] in *.
        assert (C : forall u, sy_up s ++ o_sent o = map (up_dgram ch) u -> Forall (fun u => match u with
                            | UJunk d => junk d
                            | UReq p j cemi => nth_error (a_wr a) p = Some (j, cemi)
                            | UAck _ => True end) u ->
          sim ip ch s0 frame (mksys (sy_gw s) c1 (map (down_dgram ch frame) q) (sy_up s ++ o_sent o) (sy_log s ++ [(EvData d, o)]))
            (mkabs (a_g a) (a_r a) (a_k a) (a_l a) q u (a_dlv a) (a_wr a) (a_bp a))).
        { intros u Hu Fu.
          constructor; cbn [sy_client sy_gw sy_down sy_up a_k a_l a_g a_r a_bp a_wr a_down a_up a_dlv]; try assumption; try congruence.
          -- rewrite reports_snoc, Dl, app_nil_r. exact m_dlv0.
          -- rewrite taken_snoc'. fold (client_taken s). rewrite m_taken0, St. reflexivity.
          -- rewrite written_snoc. cbn [flat_map]. rewrite app_nil_r. exact m_wr0. }
        destruct (a_k a mod 256 =? i mod 256 + 1) eqn:E2; apply C; try rewrite Ds.
        -- rewrite map_app, m_up0. cbn. f_equal. f_equal. apply ack_congruent. apply Zmod_mod.
        -- apply Forall_app. split; [assumption|]. repeat constructor.
        -- rewrite app_nil_r. exact m_up0.
        -- assumption.
    + cbn [down_dgram] in *. set (d := tunnelling_ack ch j 0) in *.
      assert (Al : allowed (sy_client s) (EvData d)) by (split; [exact m_trans0|apply ack_octets]).
      pose proof (step_facts ip _ _ m_good0 Al) as FX. pose proof (ack_step ip (sy_client s) ch j m_good0 m_trans0) as [Dl Ds]. fold d in Dl, Ds.
      unfold sy_client_event. destruct (client_step (sy_client s) (EvData d)) as [c1 o]. cbn [fst snd] in *.
      destruct FX. specialize (f_remote (a_k a) m_k0). cbn [local_step channel_step up_step] in *.
      assert (St : taken_step (a_k a) (EvData d, o) = a_k a) by reflexivity. rewrite St in f_remote.
      destruct (ack_plain ch j 0) as (_ & _ & X & Y). fold d in X, Y. rewrite X in f_local. rewrite Y in f_channel.
      constructor; cbn [sy_client sy_gw sy_down sy_up a_k a_l a_g a_r a_bp a_wr a_down a_up a_dlv]; try assumption; try congruence.
      * apply (same_trans _ (c_state (sy_client s))); assumption.
      * rewrite f_local, m_l0. destruct (j mod 256 =? a_l a mod 256) eqn:E; lia.
      * rewrite Ds, app_nil_r. exact m_up0.
      * rewrite reports_snoc, Dl, app_nil_r. exact m_dlv0.
      * rewrite taken_snoc'. fold (client_taken s). rewrite m_taken0, St. reflexivity.
      * rewrite written_snoc. cbn [flat_map]. rewrite app_nil_r. exact m_wr0.
  - (* Arrive_up *)
    exists None. split; [exact I|]. unfold sy_step, astep. destruct (a_up a) as [|[p j cemi|v|d] q] eqn:Eq; cbn [map] in m_up0; rewrite m_up0.
    { constructor; try assumption; rewrite Eq; assumption. }
    + cbn [up_dgram]. unfold gw_receive. destruct (request_tail ch j cemi) as (x & y & ->).
      pose proof (Forall_inv m_item0) as Ip. pose proof (Forall_inv_tail m_item0) as It. cbn in Ip.
      rewrite m_gch0, m_r0. replace (ch mod 256 =? ch) with true by lia. cbn [negb]. change (1056 =? 1057) with false. change (1056 =? 1056) with true. cbv iota.
      assert (Lp : (p < length (a_wr a))%nat) by (apply nth_error_Some; congruence).
      destruct (j mod 256 =? a_r a mod 256) eqn:E1; [|destruct (j mod 256 =? (a_r a - 1) mod 256) eqn:E2];
      constructor; cbn [sy_client sy_gw sy_down sy_up sy_log a_k a_l a_g a_r a_bp a_wr a_down a_up a_dlv gw_channel gw_sent gw_taken gw_bus]; try assumption; try congruence.
      * rewrite map_app, m_bus0. cbn. unfold frame_at at 3. rewrite (nth_error_nth _ _ _ Ip). reflexivity.
      * rewrite map_app, m_down0. cbn. f_equal. f_equal. apply ack_congruent. lia.
      * apply Forall_app. split; [assumption|]. repeat constructor. exact Lp.
      * rewrite map_app, m_down0. cbn. f_equal. f_equal. apply ack_congruent. lia.
      * rewrite app_nil_r. exact m_down0.
    + cbn [up_dgram]. unfold gw_receive. rewrite ack_service. rewrite m_gch0, m_g0. replace (ch mod 256 =? ch) with true by lia. cbn [negb].
      change (1057 =? 1057) with true. change (0 mod 256 =? 0) with true. cbv iota. rewrite andb_true_r.
      pose proof (Forall_inv_tail m_item0) as It.
      destruct (v mod 256 =? a_g a mod 256) eqn:E1;
      constructor; cbn [sy_client sy_gw sy_down sy_up sy_log a_k a_l a_g a_r a_bp a_wr a_down a_up a_dlv gw_channel gw_sent gw_taken gw_bus]; try assumption; try congruence;
      rewrite app_nil_r; exact m_down0.
    + cbn [up_dgram]. pose proof (Forall_inv m_item0) as Ip. pose proof (Forall_inv_tail m_item0) as It. cbn in Ip.
      assert (gw_receive (sy_gw s) d = (sy_gw s, [])) as ->.
      { unfold gw_receive. destruct (ip_service d) as [[service r]|] eqn:S; [|reflexivity]. destruct (Ip service r S) as [N1 N2].
        destruct r as [|? [|? [|? [|? [|? [|? ?]]]]]]; try reflexivity. destruct (negb _); [reflexivity|].
        replace (service =? 1057) with false by lia. replace (service =? 1056) with false by lia. reflexivity. }
      constructor; cbn [sy_client sy_gw sy_down sy_up sy_log a_k a_l a_g a_r a_bp a_wr a_down a_up a_dlv]; try assumption; try congruence.
      rewrite app_nil_r; exact m_down0.
  - (* Turn *)
    destruct (turn_items ip (sy_client s) ch m_good0 m_ch0) as (x & Ex & Jx). exists x. split; [exact Jx|].
    pose proof (step_facts ip _ EvWriter m_good0 I) as FX. destruct (step_writer ip _ m_good0) as (s1 & _ & Ew).
    unfold sy_step, astep, sy_client_event. rewrite Ew in FX |- *. destruct FX. cbn [fst snd] in *. rewrite Ex.
    cbn [local_step channel_step up_step] in *. specialize (f_remote (a_k a) m_k0). cbn [taken_step] in f_remote. rewrite m_l0 in *.
    constructor; cbn [sy_client sy_gw sy_down sy_up sy_log o_sent a_k a_l a_g a_r a_bp a_wr a_down a_up a_dlv]; try assumption; try congruence.
    + apply (same_trans _ (c_state (sy_client s))); assumption.
    + rewrite m_bus0. apply map_ext_in. intros p Ip. symmetry. apply frame_at_app. rewrite Forall_forall in m_bp0. auto.
    + rewrite map_app, m_up0. f_equal. destruct x as [[[cemi|] d]|]; try reflexivity.
      cbn. unfold tunnelling_request. rewrite Zmod_mod. reflexivity.
    + apply Forall_app. split.
      * eapply Forall_impl; [|exact m_item0]. intros [p j cemi|v|d] Hu; try exact Hu. rewrite nth_error_app1; [exact Hu|]. apply nth_error_Some. congruence.
      * destruct x as [[[cemi|] d]|]; cbn; [constructor; [|constructor]|constructor; [exact Jx|constructor]|constructor]. rewrite nth_error_app2 by reflexivity. rewrite Nat.sub_diag. reflexivity.
    + eapply Forall_impl; [|exact m_bp0]. intros p Lp. cbn in Lp. rewrite app_length. lia.
    + rewrite reports_snoc. cbn. rewrite app_nil_r. exact m_dlv0.
    + rewrite taken_snoc'. exact m_taken0.
    + rewrite written_snoc, map_app. cbn [o_sent]. f_equal; [exact m_wr0|]. destruct x as [[[cemi|] d]|]; try reflexivity.
      cbn [flat_map]. rewrite (junk_tunnelled d Jx). reflexivity.
  - exists None. split; [exact I|]. constructor; try assumption. cbn. rewrite map_lose, m_down0. reflexivity.
  - exists None. split; [exact I|]. constructor; try assumption; cbn.
    + rewrite map_lose, m_up0. reflexivity.
    + apply (incl_Forall' _ (a_up a)); [apply lose_incl|assumption].
  - exists None. split; [exact I|]. constructor; try assumption. cbn. rewrite map_again, m_down0. reflexivity.
  - exists None. split; [exact I|]. constructor; try assumption; cbn.
    + rewrite map_again, m_up0. reflexivity.
    + apply (incl_Forall' _ (a_up a)); [apply again_incl|assumption].
Qed.

(** A due request without meaning is as good as lost. *)
Lemma sim_step_refused ip ch s0 frame s a i q e : 0 <= ch < 256 -> fits s0 -> sendable frame -> sim ip ch s0 frame s a ->
  a_down a = DReq i :: q -> i mod 256 = a_k a mod 256 -> meaning s0 (frame i) = Err e ->
  sim ip ch s0 frame (sy_step frame s Arrive_down) (astep None a (Lose_down 0)).
Proof.
  intros Hch F0 Mf [] Eq Ei He. unfold sy_step, astep. rewrite Eq in m_down0. cbn [map down_dgram] in m_down0. rewrite m_down0, Eq.
  pose proof (Mf i) as Oc. set (d := tunnelling_request ch i (frame i)) in *.
  assert (Al : allowed (sy_client s) (EvData d)) by (split; [exact m_trans0|apply request_octets; exact Oc]).
  pose proof (step_facts ip _ _ m_good0 Al) as FX.
  assert (Od : octets d) by (apply request_octets; exact Oc).
  assert (Ht : tunnelled d = Some (i mod 256, frame i)) by apply request_tunnelled.
  assert (En : i mod 256 = st_remote (c_state (sy_client s))) by congruence.
  pose proof (step_taken ip _ d _ (frame i) m_good0 m_trans0 Od Ht En) as X. cbv zeta in X. pose proof m_good0 as (_ & _ & F & _).
  rewrite (decode_meaning d _ (frame i) s0 (c_state (sy_client s)) Od Ht F0 F m_same0 En), He in X. cbn [rbind] in X.
  unfold sy_client_event. rewrite X in FX |- *. cbn [fst snd] in FX. destruct FX. specialize (f_remote (a_k a) m_k0).
  assert (St : taken_step (a_k a) (EvData d, mkobs [] (Some (Err e))) = a_k a).
  { unfold taken_step. rewrite Ht. cbn [acked o_sent existsb]. destruct (i mod 256 =? a_k a mod 256); reflexivity. }
  rewrite St in f_remote. cbn [local_step channel_step up_step] in *.
  pose proof (request_plain ch i (frame i)) as (_ & P1 & P2). fold d in P1, P2. rewrite P1 in f_local. rewrite P2 in f_channel.
  constructor; cbn [sy_client sy_gw sy_down sy_up o_sent lose firstn skipn app a_k a_l a_g a_r a_bp a_wr a_down a_up a_dlv]; try assumption; try congruence.
  - apply (same_trans _ (c_state (sy_client s))); assumption.
  - rewrite app_nil_r. assumption.
  - rewrite reports_snoc. cbn. rewrite app_nil_r. exact m_dlv0.
  - rewrite taken_snoc'. fold (client_taken s). rewrite m_taken0, St. reflexivity.
  - rewrite written_snoc. cbn [flat_map]. rewrite app_nil_r. exact m_wr0.
Qed.
Lemma sim_step ip ch s0 frame s a h : 0 <= ch < 256 -> fits s0 -> sendable frame -> sim ip ch s0 frame s a ->
  exists x h', match x with Some (None, d) => junk d | _ => True end /\ (h' = h /\ takes s0 frame a h \/ h = Arrive_down /\ h' = Lose_down 0) /\
  sim ip ch s0 frame (sy_step frame s h) (astep x a h').
Proof.
  intros Hch F0 Mf S.
  assert (D : takes s0 frame a h \/ h = Arrive_down /\ exists i q e, a_down a = DReq i :: q /\ i mod 256 = a_k a mod 256 /\ meaning s0 (frame i) = Err e).
  { destruct h; try (left; intros X; discriminate X). destruct (a_down a) as [|[i|j] q] eqn:Eq; try (left; intros _ i' q' X; congruence).
    destruct (Z.eq_dec (i mod 256) (a_k a mod 256)) as [E|N].
    - destruct (meaning s0 (frame i)) as [l|e] eqn:He.
      + left. intros _ i' q' X _. assert (i' = i) as -> by congruence. eauto.
      + right. split; [reflexivity|]. exists i, q, e. auto.
    - left. intros _ i' q' X E. assert (i' = i) as -> by congruence. contradiction. }
  destruct D as [T|(-> & i & q & e & Eq & Ei & He)].
  - destruct (sim_step_taken ip ch s0 frame s a h Hch F0 Mf S T) as (x & Lx & S1). exists x, h. split; [exact Lx|]. split; [left; auto|exact S1].
  - exists None, (Lose_down 0). split; [exact I|]. split; [right; auto|]. exact (sim_step_refused ip ch s0 frame s a i q e Hch F0 Mf S Eq Ei He).
Qed.

Definition legal (x : option (option (list Z) * list Z)) : Prop := match x with Some (None, d) => junk d | _ => True end.
Lemma sim_inv (P : abs -> Prop) ip ch s0 frame hs : 0 <= ch < 256 -> fits s0 -> sendable frame ->
  (forall x a h, legal x -> P a -> P (astep x a h)) ->
  forall s a, sim ip ch s0 frame s a -> P a -> exists a', sim ip ch s0 frame (sy_run frame s hs) a' /\ P a'.
Proof.
  intros Hch F0 Mf HP. induction hs as [|h hs IH]; intros s a S Pa; [exists a; split; assumption|].
  destruct (sim_step ip ch s0 frame s a h Hch F0 Mf S) as (x & h' & Lx & _ & S1). apply (IH _ (astep x a h') S1). apply HP; assumption.
Qed.

(** ** Ordered queues *)
Lemma FOP_snoc {A} (R : A -> A -> Prop) l x : ForallOrdPairs R l -> Forall (fun y => R y x) l -> ForallOrdPairs R (l ++ [x]).
Proof.
  induction 1 as [|y l Hy Hl IH]; intros F; cbn; [repeat constructor|]. constructor.
  - apply Forall_app. split; [exact Hy|]. constructor; [exact (Forall_inv F)|constructor].
  - apply IH. exact (Forall_inv_tail F).
Qed.
Lemma FOP_lose {A} (R : A -> A -> Prop) : forall n l, ForallOrdPairs R l -> ForallOrdPairs R (lose n l).
Proof.
  induction n as [|n IH]; intros l H; destruct H as [|x l Hx Hl]; try constructor.
  - exact Hl.
  - exact (incl_Forall' _ l (lose n l) (lose_incl n l) Hx).
  - apply IH. exact Hl.
Qed.
Lemma FOP_again {A} (R : A -> A -> Prop) : (forall x, R x x) -> forall n l, ForallOrdPairs R l -> ForallOrdPairs R (again n l).
Proof.
  intros Rf. induction n as [|n IH]; intros l H; destruct H as [|x l Hx Hl]; try constructor.
  - constructor; [apply Rf|exact Hx].
  - constructor; assumption.
  - exact (incl_Forall' _ l (again n l) (again_incl n l) Hx).
  - apply IH. exact Hl.
Qed.

(** ** To the client *)
Definition le_dreq (x y : down_item) : Prop := match x, y with DReq i, DReq j => i <= j | _, _ => True end.
Definition le_uack (x y : up_item) : Prop := match x, y with UAck i, UAck j => i <= j | _, _ => True end.
Record inb (a : abs) : Prop := {
  i_g : 0 <= a_g a;
  i_k : 0 <= a_k a;
  i_gk : a_g a - 1 <= a_k a <= a_g a + 1;
  i_dord : ForallOrdPairs le_dreq (a_down a);
  i_dreq : Forall (fun x => match x with DReq i => a_k a - 1 <= i <= a_g a | _ => True end) (a_down a);
  i_uord : ForallOrdPairs le_uack (a_up a);
  i_uack : Forall (fun x => match x with UAck v => a_g a - 1 <= v <= a_k a | _ => True end) (a_up a);
  i_dlv : a_dlv a = upto (a_k a)
}.
Ltac fop_inv H := match type of H with ForallOrdPairs _ (_ :: _) => inversion H; clear H; subst end.
Lemma inb_step x a h : inb a -> inb (astep x a h).
Proof.
  intros [].
  assert (Rd : forall x, le_dreq x x) by (intros [i|j]; cbn; lia || exact I).
  assert (Ru : forall x, le_uack x x) by (intros [p j c|v|d]; cbn; lia || exact I).
  destruct h as [| | | |n|n|n|n]; unfold astep.
  - constructor; cbn; try assumption.
    + apply FOP_snoc; [assumption|]. eapply Forall_impl; [|exact i_dreq0]. intros [i|j] H; cbn; [lia|exact I].
    + apply Forall_app. split; [assumption|]. constructor; [lia|constructor].
  - destruct (a_down a) as [|[i|j] q] eqn:Eq; [constructor; try rewrite Eq; assumption| |].
    + pose proof (Forall_inv i_dreq0) as Bi. pose proof (Forall_inv_tail i_dreq0) as Bq. cbn in Bi. fop_inv i_dord0.
      destruct (i mod 256 =? a_k a mod 256) eqn:E1; [|destruct (a_k a mod 256 =? i mod 256 + 1) eqn:E2].
      * assert (i = a_k a) by lia. subst i. constructor; cbn; try assumption; try lia.
        -- rewrite Forall_forall in *. intros [j|j] Ij; [|exact I]. specialize (Bq _ Ij). specialize (H1 _ Ij). cbn in *. lia.
        -- apply FOP_snoc; [assumption|]. eapply Forall_impl; [|exact i_uack0]. intros [p j c|v|d] H; cbn; try exact I. lia.
        -- apply Forall_app. split; [|constructor; [lia|constructor]]. eapply Forall_impl; [|exact i_uack0]. intros [p j c|v|d] H; cbn; try exact I. lia.
        -- rewrite upto_S by assumption. rewrite i_dlv0. reflexivity.
      * constructor; cbn; try assumption; try lia.
        -- apply FOP_snoc; [assumption|]. eapply Forall_impl; [|exact i_uack0]. intros [p j c|v|d] H; cbn; try exact I. lia.
        -- apply Forall_app. split; [assumption|]. constructor; [lia|constructor].
      * constructor; cbn; assumption.
    + pose proof (Forall_inv_tail i_dreq0) as Bq. fop_inv i_dord0. constructor; cbn; assumption.
  - destruct (a_up a) as [|[p j cemi|v|d] q] eqn:Eq; [constructor; try rewrite Eq; assumption| | |];
      pose proof (Forall_inv i_uack0) as Bv; pose proof (Forall_inv_tail i_uack0) as Bq; cbn in Bv; fop_inv i_uord0.
    + assert (X : forall y, ForallOrdPairs le_dreq (a_down a ++ [DAck y])) by
        (intros y; apply FOP_snoc; [assumption|]; apply Forall_forall; intros [i|i] _; exact I).
      assert (Y : forall y, Forall (fun x => match x with DReq i => a_k a - 1 <= i <= a_g a | _ => True end) (a_down a ++ [DAck y])) by
        (intros y; apply Forall_app; split; [assumption|repeat constructor]).
      destruct (j mod 256 =? a_r a mod 256); [|destruct (j mod 256 =? (a_r a - 1) mod 256)]; constructor; cbn; auto.
    + destruct (v mod 256 =? a_g a mod 256) eqn:E.
      * assert (v = a_g a) by lia. subst v. constructor; cbn; try assumption; try lia.
        -- eapply Forall_impl; [|exact i_dreq0]. intros [i|i] H; cbn; [lia|exact I].
        -- rewrite Forall_forall in *. intros [p j c|v|d] Ij; try exact I. specialize (Bq _ Ij). specialize (H1 _ Ij). cbn in *. lia.
      * constructor; cbn; assumption.
    + constructor; cbn; assumption.
  - constructor; cbn; try assumption; destruct x as [[[cemi|] d]|]; cbn; rewrite ?app_nil_r; try assumption.
    1, 2: apply FOP_snoc; [assumption|]; apply Forall_forall; intros [p j c|v|e] _; exact I.
    1, 2: apply Forall_app; split; [assumption|repeat constructor].
  - constructor; cbn; try assumption; [apply FOP_lose; assumption|apply (incl_Forall' _ _ _ (lose_incl n _)); assumption].
  - constructor; cbn; try assumption; [apply FOP_lose; assumption|apply (incl_Forall' _ _ _ (lose_incl n _)); assumption].
  - constructor; cbn; try assumption; [apply FOP_again; assumption|apply (incl_Forall' _ _ _ (again_incl n _)); assumption].
  - constructor; cbn; try assumption; [apply FOP_again; assumption|apply (incl_Forall' _ _ _ (again_incl n _)); assumption].
Qed.

Ltac split_if := match goal with |- context [if ?b then _ else _] => destruct b end.
(** The acknowledgement of the last request is lost. *)
Record stuck (G : Z) (a : abs) : Prop := {
  t_inb : inb a;
  t_g : a_g a = G;
  t_k : a_k a = G + 1;
  t_up : Forall (fun x => match x with UAck v => v <> G | _ => True end) (a_up a)
}.
Lemma stuck_step G x a h : stuck G a -> stuck G (astep x a h).
Proof.
  intros []. pose proof (inb_step x a h t_inb0) as N. constructor; [exact N| | |]; destruct t_inb0; clear N;
    destruct h as [| | | |n|n|n|n]; unfold astep; cbn; try assumption.
  - destruct (a_down a) as [|[i|j] q] eqn:Eq; try assumption. pose proof (Forall_inv i_dreq0) as Bi. cbn in Bi.
    destruct (i mod 256 =? a_k a mod 256) eqn:E1; [exfalso; lia|]. split_if; assumption.
  - destruct (a_up a) as [|[p j cemi|v|d] q] eqn:Eq; try assumption.
    + split_if; [assumption|]. split_if; assumption.
    + pose proof (Forall_inv i_uack0) as Bv. pose proof (Forall_inv t_up0) as Nv. cbn in Bv, Nv. cbn. destruct (v mod 256 =? a_g a mod 256) eqn:E; [exfalso; lia|assumption].
  - destruct (a_down a) as [|[i|j] q] eqn:Eq; try assumption. pose proof (Forall_inv i_dreq0) as Bi. cbn in Bi.
    destruct (i mod 256 =? a_k a mod 256) eqn:E1; [exfalso; lia|]. split_if; assumption.
  - destruct (a_up a) as [|[p j cemi|v|d] q] eqn:Eq; try assumption.
    split_if; [assumption|]. split_if; assumption.
  - destruct (a_down a) as [|[i|j] q] eqn:Eq; try assumption. pose proof (Forall_inv i_dreq0) as Bi. cbn in Bi.
    destruct (i mod 256 =? a_k a mod 256) eqn:E1; [exfalso; lia|]. split_if; cbn; [|assumption].
    apply Forall_app. split; [assumption|]. constructor; [lia|constructor].
  - pose proof t_up0 as T. destruct (a_up a) as [|[p j cemi|v|d] q] eqn:Eq; [rewrite Eq; exact T| | |]; pose proof (Forall_inv_tail t_up0); try assumption.
    split_if; [assumption|]. split_if; assumption.
  - apply Forall_app. split; [assumption|]. destruct x as [[[cemi|] d]|]; repeat constructor.
  - apply (incl_Forall' _ _ _ (lose_incl n _)); assumption.
  - apply (incl_Forall' _ _ _ (again_incl n _)); assumption.
Qed.
(** The gateway is one ahead of the client. *)
Record ahead (G : Z) (a : abs) : Prop := {
  h_inb : inb a;
  h_g : a_g a = G;
  h_k : a_k a = G - 1;
  h_down : Forall (fun x => match x with DReq i => i <> G - 1 | _ => True end) (a_down a)
}.
Lemma ahead_step G x a h : ahead G a -> ahead G (astep x a h).
Proof.
  intros []. pose proof (inb_step x a h h_inb0) as N. constructor; [exact N| | |]; destruct h_inb0; clear N;
    destruct h as [| | | |n|n|n|n]; unfold astep; cbn; try assumption.
  - destruct (a_down a) as [|[i|j] q] eqn:Eq; try assumption. split_if; [assumption|]. split_if; assumption.
  - destruct (a_up a) as [|[p j cemi|v|d] q] eqn:Eq; try assumption.
    + split_if; [assumption|]. split_if; assumption.
    + pose proof (Forall_inv i_uack0) as Bv. cbn in Bv. cbn. destruct (v mod 256 =? a_g a mod 256) eqn:E; [exfalso; lia|assumption].
  - destruct (a_down a) as [|[i|j] q] eqn:Eq; try assumption. pose proof (Forall_inv i_dreq0) as Bi. pose proof (Forall_inv h_down0) as Ni. cbn in Bi, Ni.
    destruct (i mod 256 =? a_k a mod 256) eqn:E1; [exfalso; lia|]. split_if; assumption.
  - destruct (a_up a) as [|[p j cemi|v|d] q] eqn:Eq; try assumption.
    split_if; [assumption|]. split_if; assumption.
  - apply Forall_app. split; [assumption|]. constructor; [lia|constructor].
  - pose proof h_down0 as T. destruct (a_down a) as [|[i|j] q] eqn:Eq; [rewrite Eq; exact T| |]; pose proof (Forall_inv_tail h_down0); try assumption.
    split_if; [assumption|]. split_if; assumption.
  - destruct (a_up a) as [|[p j cemi|v|d] q] eqn:Eq; try assumption.
    split_if; [|split_if]; cbn; try assumption; (apply Forall_app; split; [assumption|repeat constructor]).
  - apply (incl_Forall' _ _ _ (lose_incl n _)); assumption.
  - apply (incl_Forall' _ _ _ (again_incl n _)); assumption.
Qed.

(** ** To the bus *)
Definition le_dack (x y : down_item) : Prop := match x, y with DAck i, DAck j => i <= j | _, _ => True end.
Definition le_ureq (x y : up_item) : Prop := match x, y with UReq p i _, UReq q j _ => (p <= q)%nat /\ i <= j | _, _ => True end.
Definition counter_at (wr : list (Z * list Z)) (p : nat) : Z := fst (nth p wr (0, [])).
Record outb (a : abs) : Prop := {
  b_r : 0 <= a_r a;
  b_lr : a_l a <= a_r a <= a_l a + 1;
  b_uord : ForallOrdPairs le_ureq (a_up a);
  b_ureq : Forall (fun x => match x with
                            | UReq p j cemi => a_r a - 1 <= j <= a_l a /\ nth_error (a_wr a) p = Some (j, cemi) /\ Forall (fun b => (b <= p)%nat) (a_bp a)
                            | _ => True end) (a_up a);
  b_dord : ForallOrdPairs le_dack (a_down a);
  b_dack : Forall (fun x => match x with DAck j => a_l a - 1 <= j <= a_r a - 1 | _ => True end) (a_down a);
  b_wr : Forall (fun w => fst w <= a_l a) (a_wr a);
  b_sorted : StronglySorted lt (a_bp a);
  b_len : Forall (fun p => (p < length (a_wr a))%nat) (a_bp a);
  b_bp : map (counter_at (a_wr a)) (a_bp a) = upto (a_r a)
}.
Lemma in_upto r x : In x (upto r) -> 0 <= x < r.
Proof. unfold upto. rewrite in_map_iff. intros (n & <- & I). apply in_seq in I. lia. Qed.
Lemma sorted_snoc bp p : StronglySorted lt bp -> Forall (fun b => (b < p)%nat) bp -> StronglySorted lt (bp ++ [p]).
Proof.
  induction 1 as [|x l Hl IH Hx]; intros F; cbn; [repeat constructor|]. constructor.
  - apply IH. exact (Forall_inv_tail F).
  - apply Forall_app. split; [exact Hx|]. constructor; [exact (Forall_inv F)|constructor].
Qed.
Lemma counter_at_app wr w p : (p < length wr)%nat -> counter_at (wr ++ w) p = counter_at wr p.
Proof. intros L. unfold counter_at. rewrite app_nth1 by exact L. reflexivity. Qed.
Lemma outb_step x a h : outb a -> outb (astep x a h).
Proof.
  intros [].
  assert (Rd : forall x, le_dack x x) by (intros [i|j]; cbn; lia || exact I).
  assert (Ru : forall x, le_ureq x x) by (intros [p j c|v|d]; cbn; lia || exact I).
  destruct h as [| | | |n|n|n|n]; unfold astep.
  - constructor; cbn; try assumption.
    + apply FOP_snoc; [assumption|]. apply Forall_forall. intros [i|i] _; exact I.
    + apply Forall_app. split; [assumption|repeat constructor].
  - assert (X : forall y, ForallOrdPairs le_ureq (a_up a ++ [UAck y])) by
        (intros y; apply FOP_snoc; [assumption|]; apply Forall_forall; intros [p j c|v|d] _; exact I).
    assert (Y : forall P y, Forall (fun x => match x with UReq p j cemi => P p j cemi | _ => True end) (a_up a) ->
        Forall (fun x => match x with UReq p j cemi => P p j cemi | _ => True end) (a_up a ++ [UAck y])) by
        (intros P y F; apply Forall_app; split; [exact F|repeat constructor]).
    destruct (a_down a) as [|[i|j] q] eqn:Eq; [constructor; try rewrite Eq; assumption| |];
      pose proof (Forall_inv b_dack0) as Bi; pose proof (Forall_inv_tail b_dack0) as Bq; cbn in Bi; fop_inv b_dord0.
    + split_if; [|split_if]; constructor; cbn; auto.
    + destruct (j mod 256 =? a_l a mod 256) eqn:E.
      * assert (j = a_l a) by lia. subst j. constructor; cbn; try assumption; try lia.
        -- eapply Forall_impl; [|exact b_ureq0]. intros [p j c|v|d] Hdi; try exact I. intuition lia.
        -- rewrite Forall_forall in *. intros [i|i] Ij; [exact I|]. specialize (Bq _ Ij). specialize (H1 _ Ij). cbn in *. lia.
        -- eapply Forall_impl; [|exact b_wr0]. intros w Hw. cbn in *. lia.
      * constructor; cbn; assumption.
  - destruct (a_up a) as [|[p j cemi|v|d] q] eqn:Eq; [constructor; try rewrite Eq; assumption| | |];
      pose proof (Forall_inv b_ureq0) as Bv; pose proof (Forall_inv_tail b_ureq0) as Bq; cbn in Bv; fop_inv b_uord0.
    + destruct Bv as (Bj & Np & Bb).
      assert (Lp : (p < length (a_wr a))%nat) by (apply nth_error_Some; congruence).
      assert (Cp : counter_at (a_wr a) p = j) by (unfold counter_at; rewrite (nth_error_nth _ _ _ Np); reflexivity).
      destruct (j mod 256 =? a_r a mod 256) eqn:E1; [|destruct (j mod 256 =? (a_r a - 1) mod 256) eqn:E2].
      * assert (Ej : j = a_r a) by lia. rewrite Ej in Np, Cp. constructor; cbn; try assumption; try lia.
        -- rewrite Forall_forall in *. intros [p' j' c'|v|d] Ij; try exact I. specialize (Bq _ Ij). specialize (H1 _ Ij). cbn in *.
           destruct Bq as (B1 & B2 & B3). split; [lia|]. split; [exact B2|]. apply Forall_app. split; [exact B3|]. constructor; [lia|constructor].
        -- apply FOP_snoc; [assumption|]. eapply Forall_impl; [|exact b_dack0]. intros [i|i] Hdi; cbn; [exact I|lia].
        -- apply Forall_app. split; [|constructor; [lia|constructor]]. eapply Forall_impl; [|exact b_dack0]. intros [i|i] Hdi; cbn; [exact I|lia].
        -- apply sorted_snoc; [assumption|]. rewrite Forall_forall in *. intros b Ib. specialize (Bb b Ib). cbn in Bb.
           assert (b <> p); [|lia]. intros ->. assert (In (a_r a) (upto (a_r a))) as Iu.
           { rewrite <- b_bp0. rewrite <- Cp at 1. apply in_map. exact Ib. }
           apply in_upto in Iu. lia.
        -- apply Forall_app. split; [assumption|]. constructor; [exact Lp|constructor].
        -- rewrite map_app, b_bp0, upto_S by assumption. cbn. rewrite Cp. reflexivity.
      * assert (j = a_r a - 1) by lia. constructor; cbn; try assumption; try lia.
        -- apply FOP_snoc; [assumption|]. eapply Forall_impl; [|exact b_dack0]. intros [i|i] Hdi; cbn; [exact I|lia].
        -- apply Forall_app. split; [|constructor; [lia|constructor]]. eapply Forall_impl; [|exact b_dack0]. intros [i|i] Hdi; cbn; [exact I|lia].
      * constructor; cbn; assumption.
    + constructor; cbn; assumption.
    + constructor; cbn; assumption.
  - assert (W : forall w p, (p < length (a_wr a))%nat -> counter_at (a_wr a ++ w) p = counter_at (a_wr a) p) by (intros; apply counter_at_app; assumption).
    assert (Z : forall w, map (counter_at (a_wr a ++ w)) (a_bp a) = upto (a_r a)).
    { intros w. rewrite <- b_bp0. apply map_ext_in. intros p Ip. apply W. rewrite Forall_forall in b_len0. auto. }
    constructor; cbn; try assumption.
    + destruct x as [[[cemi|] d]|]; cbn; rewrite ?app_nil_r; try assumption; (apply FOP_snoc; [assumption|]).
      * rewrite Forall_forall in *. intros [p j c|v|e] Ij; try exact I. specialize (b_ureq0 _ Ij). cbn in *. destruct b_ureq0 as (B1 & B2 & _).
        split; [|lia]. assert ((p < length (a_wr a))%nat) by (apply nth_error_Some; congruence). lia.
      * apply Forall_forall. intros [p j c|v|e] _; exact I.
    + apply Forall_app. split.
      * eapply Forall_impl; [|exact b_ureq0]. intros [p j c|v|e] H; try exact I. destruct H as (B1 & B2 & B3). split; [exact B1|]. split; [|exact B3].
        rewrite nth_error_app1; [exact B2|]. apply nth_error_Some. congruence.
      * destruct x as [[[cemi|] d]|]; cbn; [|constructor; [exact I|constructor]|constructor]. constructor; [|constructor]. split; [lia|]. split.
        -- rewrite nth_error_app2 by reflexivity. rewrite Nat.sub_diag. reflexivity.
        -- eapply Forall_impl; [|exact b_len0]. intros p Hp. cbn in Hp. lia.
    + apply Forall_app. split; [assumption|]. destruct x as [[[cemi|] d]|]; cbn; constructor; [|constructor]. cbn. lia.
    + eapply Forall_impl; [|exact b_len0]. intros p Hp. cbn in Hp. rewrite app_length. lia.
    + apply Z.
  - constructor; cbn; try assumption; [apply FOP_lose; assumption|apply (incl_Forall' _ _ _ (lose_incl n _)); assumption].
  - constructor; cbn; try assumption; [apply FOP_lose; assumption|apply (incl_Forall' _ _ _ (lose_incl n _)); assumption].
  - constructor; cbn; try assumption; [apply FOP_again; assumption|apply (incl_Forall' _ _ _ (again_incl n _)); assumption].
  - constructor; cbn; try assumption; [apply FOP_again; assumption|apply (incl_Forall' _ _ _ (again_incl n _)); assumption].
Qed.

(** Positions in increasing order pick a part of a list. *)
Lemma part_refl_tail {A} (a b : list A) x : part_of a b -> part_of a (x :: b).
Proof. apply part_skip. Qed.
Lemma picked {A} (d : A) : forall l k bp, StronglySorted lt bp -> Forall (fun p => (k <= p < k + length l)%nat) bp ->
  part_of (map (fun p => nth (p - k) l d) bp) l.
Proof.
  induction l as [|x l IH]; intros k bp So F.
  - destruct bp as [|p bp]; [constructor|]. pose proof (Forall_inv F) as H. cbn in H. lia.
  - destruct bp as [|p bp]; [constructor|]. pose proof (Forall_inv F) as H. cbn in H. inversion So as [|? ? S1 Hp]; subst.
    assert (E : forall l', Forall (fun q => (k < q)%nat) l' -> map (fun q => nth (q - k) (x :: l) d) l' = map (fun q => nth (q - S k) l d) l').
    { intros l' Fl. apply map_ext_in. intros q Iq. rewrite Forall_forall in Fl. specialize (Fl q Iq). cbn in Fl.
      replace (q - k)%nat with (S (q - S k))%nat by lia. reflexivity. }
    destruct (Nat.eq_dec p k) as [->|N].
    + cbn [map]. rewrite Nat.sub_diag. cbn [nth]. apply part_keep. rewrite E by exact Hp. apply IH; [exact S1|].
      apply Forall_forall. intros q Iq. pose proof (proj1 (Forall_forall _ _) (Forall_inv_tail F) q Iq) as A1. pose proof (proj1 (Forall_forall _ _) Hp q Iq) as A2.
      cbn in A1, A2. cbn in A1. lia.
    + assert (Hk : Forall (fun q => (k < q)%nat) (p :: bp)).
      { constructor; [lia|]. eapply Forall_impl; [|exact Hp]. intros q Hq. cbn in Hq. lia. }
      apply part_skip. rewrite E by exact Hk. apply IH; [exact So|].
      apply Forall_forall. intros q Iq. pose proof (proj1 (Forall_forall _ _) F q Iq) as A1. pose proof (proj1 (Forall_forall _ _) Hk q Iq) as A2. cbn in A1, A2. lia.
Qed.
Lemma bus_part a : outb a -> part_of (map (frame_at (a_wr a)) (a_bp a)) (map snd (a_wr a)).
Proof.
  intros []. assert (map (frame_at (a_wr a)) (a_bp a) = map (fun p => nth (p - 0) (map snd (a_wr a)) []) (a_bp a)) as ->.
  { apply map_ext. intros p. rewrite Nat.sub_0_r. unfold frame_at. change (@nil Z) with (snd (0, @nil Z)) at 2. rewrite map_nth. reflexivity. }
  apply picked; [assumption|]. eapply Forall_impl; [|exact b_len0]. intros p Hp. cbn in Hp. rewrite map_length. lia.
Qed.

(** Paced: counters are positions. *)
Record pinv (first : Z) (a : abs) : Prop := {
  p_outb : outb a;
  p_count : map fst (a_wr a) = map (fun i => first + i) (upto (zlen (a_wr a)));
  p_len : a_l a <= first + zlen (a_wr a) <= a_l a + 1;
  p_r : a_r a <= Z.max 0 (first + zlen (a_wr a));
  p_ack : Forall (fun x => match x with DAck j => j < first + zlen (a_wr a) | _ => True end) (a_down a)
}.
Lemma nth_upto n p : 0 <= Z.of_nat p < n -> nth p (upto n) 0 = Z.of_nat p.
Proof.
  intros H. unfold upto. change 0 with (Z.of_nat 0). rewrite map_nth, seq_nth by lia. lia.
Qed.
Lemma count_nth first (wr : list (Z * list Z)) p j c : map fst wr = map (fun i => first + i) (upto (zlen wr)) -> nth_error wr p = Some (j, c) -> j = first + Z.of_nat p.
Proof.
  intros E N. assert (L : (p < length wr)%nat) by (apply nth_error_Some; congruence).
  pose proof (f_equal (fun l => nth p l (first + 0)) E) as X. cbn beta in X.
  rewrite (map_nth (fun i => first + i)), nth_upto in X by (unfold zlen; lia). rewrite <- X.
  rewrite (nth_indep _ _ (fst (0, @nil Z))) by (rewrite map_length; exact L). rewrite map_nth, (nth_error_nth _ _ _ N). reflexivity.
Qed.
Lemma zlen_app' {A} (a b : list A) : zlen (a ++ b) = zlen a + zlen b.
Proof. unfold zlen. rewrite app_length. lia. Qed.
Lemma zlen_pos {A} (a : list A) : 0 <= zlen a.
Proof. unfold zlen. lia. Qed.
Lemma pinv_step first x a h : -1 <= first -> (h = Turn -> a_l a mod 256 = (first + zlen (a_wr a)) mod 256) -> pinv first a -> pinv first (astep x a h).
Proof.
  intros Hf Ht []. pose proof (outb_step x a h p_outb0) as N. constructor; [exact N| | | |]; destruct p_outb0; clear N;
    destruct h as [| | | |n|n|n|n]; unfold astep; cbn [a_g a_r a_k a_l a_down a_up a_wr a_bp]; try assumption.
  - destruct (a_down a) as [|[i|j] q]; try assumption. split_if; [assumption|]. split_if; assumption.
  - destruct (a_up a) as [|[p j cemi|v|d] q]; try assumption. split_if; [assumption|]. split_if; assumption.
  - specialize (Ht eq_refl). destruct x as [[[cemi|] d]|]; rewrite ?app_nil_r; try assumption.
    rewrite zlen_app', map_app, upto_S, map_app by apply zlen_pos. rewrite p_count0. cbn. f_equal. f_equal. lia.
  - destruct (a_down a) as [|[i|j] q] eqn:Eq; try assumption. { split_if; [assumption|]. split_if; assumption. }
    pose proof (Forall_inv b_dack0) as Bi. cbn in Bi. cbn. destruct (j mod 256 =? a_l a mod 256) eqn:E; [|assumption].
    pose proof (Forall_inv p_ack0) as Ba. cbn in Ba. lia.
  - destruct (a_up a) as [|[p j cemi|v|d] q]; try assumption. split_if; [assumption|]. split_if; assumption.
  - specialize (Ht eq_refl). destruct x as [[[cemi|] d]|]; rewrite ?app_nil_r; try assumption. rewrite zlen_app'. cbn. lia.
  - destruct (a_down a) as [|[i|j] q] eqn:Eq; try assumption. split_if; [assumption|]. split_if; assumption.
  - destruct (a_up a) as [|[p j cemi|v|d] q] eqn:Eq; try assumption.
    pose proof (Forall_inv b_ureq0) as Bv. cbn in Bv. destruct Bv as (Bj & Np & _).
    destruct (j mod 256 =? a_r a mod 256) eqn:E; [|split_if; assumption]. cbn.
    assert (Lp : (p < length (a_wr a))%nat) by (apply nth_error_Some; congruence).
    pose proof (count_nth first _ p j cemi p_count0 Np). unfold zlen in *. lia.
  - destruct x as [[[cemi|] d]|]; rewrite ?app_nil_r; try assumption. rewrite zlen_app'. cbn. lia.
  - apply Forall_app. split; [assumption|repeat constructor].
  - pose proof p_ack0 as T. destruct (a_down a) as [|[i|j] q] eqn:Eq; [rewrite Eq; exact T| |]; pose proof (Forall_inv_tail p_ack0); try assumption.
    split_if; [assumption|]. split_if; assumption.
  - destruct (a_up a) as [|[p j cemi|v|d] q] eqn:Eq; try assumption.
    pose proof (Forall_inv b_ureq0) as Bv. cbn in Bv. destruct Bv as (Bj & Np & _).
    assert (Lp : (p < length (a_wr a))%nat) by (apply nth_error_Some; congruence).
    pose proof (count_nth first _ p j cemi p_count0 Np).
    destruct (j mod 256 =? a_r a mod 256) eqn:E; [|destruct (j mod 256 =? (a_r a - 1) mod 256) eqn:E2]; cbn; try assumption;
      (apply Forall_app; split; [assumption|constructor; [unfold zlen in *; lia|constructor]]).
  - eapply Forall_impl; [|exact p_ack0]. intros [i|i] Hi; [exact I|]. rewrite zlen_app'. pose proof (zlen_pos (match x with Some (Some cemi, _) => [(a_l a, cemi)] | _ => [] end)). lia.
  - apply (incl_Forall' _ _ _ (lose_incl n _)); assumption.
  - apply (incl_Forall' _ _ _ (again_incl n _)); assumption.
Qed.
Lemma sim_paced first ip ch s0 frame hs : -1 <= first -> 0 <= ch < 256 -> fits s0 -> sendable frame ->
  forall s a, sim ip ch s0 frame s a -> pinv first a -> paced frame first s hs ->
  exists a', sim ip ch s0 frame (sy_run frame s hs) a' /\ pinv first a'.
Proof.
  intros Hf Hch F0 Mf. induction hs as [|h hs IH]; intros s a S Pa Pp; [exists a; split; assumption|]. destruct Pp as [Pt Pr].
  destruct (sim_step ip ch s0 frame s a h Hch F0 Mf S) as (x & h' & Lx & Eh & S1). apply (IH _ (astep x a h') S1); [|exact Pr].
  apply pinv_step; [exact Hf| |exact Pa]. intros E. destruct Eh as [[-> _]|[_ ->]]; [|discriminate E]. specialize (Pt E). rewrite (m_l _ _ _ _ _ _ S) in Pt.
  rewrite (m_wr _ _ _ _ _ _ S) in Pt. rewrite Pt. unfold zlen. rewrite map_length. reflexivity.
Qed.
Lemma positions first a : -1 <= first <= 0 -> pinv first a -> a_bp a = seq (Z.to_nat (- first)) (Z.to_nat (a_r a)).
Proof.
  intros Hf [[] ? ? ? ?]. assert (Forall (fun p => counter_at (a_wr a) p = first + Z.of_nat p) (a_bp a)) as F.
  { eapply Forall_impl; [|exact b_len0]. intros p Lp. cbn in Lp. destruct (nth_error (a_wr a) p) as [[j c]|] eqn:N.
    - unfold counter_at. rewrite (nth_error_nth _ _ _ N). exact (count_nth first _ p j c p_count0 N).
    - apply nth_error_None in N. lia. }
  assert (E : map (fun p => first + Z.of_nat p) (a_bp a) = upto (a_r a)).
  { rewrite <- b_bp0. apply map_ext_in. intros p Ip. rewrite Forall_forall in F. symmetry. auto. }
  unfold upto in E. clear -E Hf. revert E. generalize (Z.to_nat (a_r a)). intros n. generalize (a_bp a). intros bp.
  assert (X : forall bp n k, map (fun p => first + Z.of_nat p) bp = map Z.of_nat (seq k n) -> bp = seq (k + Z.to_nat (- first)) n).
  { clear -Hf. induction bp as [|p bp IH]; intros [|n] k E; try discriminate E; [reflexivity|]. cbn in *. injection E as E1 E2.
    f_equal; [lia|]. apply (IH n (S k) E2). }
  apply X.
Qed.
Lemma firstn_seq_nth {A} (d : A) : forall (l : list A) k n, (k + n <= length l)%nat ->
  map (fun p => nth p l d) (seq k n) = firstn n (skipn k l).
Proof.
  intros l k n. revert k. induction n as [|n IH]; intros k H; [reflexivity|]. cbn [seq map]. rewrite IH by lia.
  rewrite (skipn_tail k). destruct (skipn k l) as [|x r] eqn:E.
  - pose proof (f_equal (@length A) E) as X. rewrite skipn_length in X. cbn in X. lia.
  - cbn. f_equal. rewrite <- (firstn_skipn k l) at 1. rewrite app_nth2; rewrite firstn_length_le by lia; [|lia]. rewrite Nat.sub_diag, E. reflexivity.
Qed.
Lemma paced_bus first a : -1 <= first <= 0 -> pinv first a ->
  map (frame_at (a_wr a)) (a_bp a) = firstn (Z.to_nat (a_r a)) (skipn (Z.to_nat (- first)) (map snd (a_wr a))).
Proof.
  intros Hf P. rewrite (positions first a Hf P). pose proof P as [[] ? ? ? ?].
  destruct (Z.eq_dec (a_r a) 0) as [->|Nz]; [reflexivity|].
  rewrite <- (firstn_seq_nth []).
  - apply map_ext. intros p. unfold frame_at. change (@nil Z) with (snd (0, @nil Z)) at 2. rewrite map_nth. reflexivity.
  - rewrite map_length. unfold zlen in *. lia.
Qed.

(** ** The counter is not reset by a new connection *)
Record deaf (n : Z) (a : abs) : Prop := {
  e_l : a_l a = n;
  e_r : a_r a = 0;
  e_bp : a_bp a = [];
  e_up : Forall (fun x => match x with UReq _ j _ => j = n | _ => True end) (a_up a);
  e_down : Forall (fun x => match x with DAck _ => False | _ => True end) (a_down a)
}.
Lemma deaf_step n x a h : 1 <= n <= 254 -> deaf n a -> deaf n (astep x a h).
Proof.
  intros Hn []. destruct h as [| | | |m|m|m|m]; unfold astep.
  - constructor; cbn; try assumption. apply Forall_app. split; [assumption|repeat constructor].
  - destruct (a_down a) as [|[i|j] q] eqn:Eq; [constructor; try rewrite Eq; assumption| |].
    + pose proof (Forall_inv_tail e_down0) as T. split_if; [|split_if]; constructor; cbn; try assumption; (apply Forall_app; split; [assumption|constructor; [exact I|constructor]]).
    + destruct (Forall_inv e_down0).
  - destruct (a_up a) as [|[p j cemi|v|d] q] eqn:Eq; [constructor; try rewrite Eq; assumption| | |]; pose proof (Forall_inv_tail e_up0) as T.
    + pose proof (Forall_inv e_up0) as J. cbn in J. subst j. rewrite e_r0. replace (n mod 256 =? 0 mod 256) with false by lia.
      replace (n mod 256 =? (0 - 1) mod 256) with false by lia. constructor; cbn; assumption || reflexivity.
    + constructor; cbn; assumption.
    + constructor; cbn; assumption.
  - constructor; cbn; try assumption. apply Forall_app. split; [assumption|]. destruct x as [[[cemi|] d]|]; cbn; [|constructor; [exact I|constructor]|constructor].
    constructor; [assumption|constructor].
  - constructor; cbn; try assumption. apply (incl_Forall' _ _ _ (lose_incl m _)); assumption.
  - constructor; cbn; try assumption. apply (incl_Forall' _ _ _ (lose_incl m _)); assumption.
  - constructor; cbn; try assumption. apply (incl_Forall' _ _ _ (again_incl m _)); assumption.
  - constructor; cbn; try assumption. apply (incl_Forall' _ _ _ (again_incl m _)); assumption.
Qed.

(** ** The start *)
Lemma sim_start ip c0 msgs es0 ch frame l : linked ip c0 msgs es0 ch -> st_local (c_state (after c0 es0)) = l mod 256 ->
  sim ip ch (c_state c0) frame (sy_start (after c0 es0) ch) (mkabs 0 0 0 l [] [] [] [] []) /\ fits (c_state c0) /\ 0 <= ch < 256.
Proof.
  intros (W & O & T & Ec & Hch & R) L. pose proof (well_made_history ip c0 msgs es0 W O) as [].
  destruct (well_made_start ip c0 msgs W) as (_ & _ & _ & _ & F). split; [|split; assumption].
  constructor; try assumption; try reflexivity; constructor.
Qed.
Lemma inb_start l : inb (mkabs 0 0 0 l [] [] [] [] []).
Proof. constructor; cbn; try lia; constructor. Qed.
Lemma outb_start l : -1 <= l <= 0 -> outb (mkabs 0 0 0 l [] [] [] [] []).
Proof. intros H. constructor; cbn; try lia; constructor. Qed.
Lemma local_range ip c0 msgs es0 ch : linked ip c0 msgs es0 ch -> 0 <= st_local (c_state (after c0 es0)) < 256.
Proof. intros (W & O & _). pose proof (s_good _ _ _ _ (well_made_history ip c0 msgs es0 W O)) as (_ & _ & F & _). apply F. Qed.

(** ** Rounds *)
Lemma sim_step_fixed ip ch s0 frame s a h : 0 <= ch < 256 -> fits s0 -> sendable frame -> sim ip ch s0 frame s a -> h <> Turn -> takes s0 frame a h ->
  sim ip ch s0 frame (sy_step frame s h) (astep None a h).
Proof.
  intros Hch F0 Mf S N T. destruct (sim_step_taken ip ch s0 frame s a h Hch F0 Mf S T) as (x & _ & S1).
  assert (astep x a h = astep None a h) as <- by (destruct h; reflexivity || congruence). exact S1.
Qed.
Lemma map_nil {A B} (f : A -> B) l : map f l = [] -> l = [].
Proof. destruct l; [reflexivity|discriminate]. Qed.
Lemma no_arrival s0 frame a h : h <> Arrive_down -> takes s0 frame a h.
Proof. intros N E. contradiction. Qed.
(** While the gateway transmits nothing only acknowledgements come down. *)
Definition acks_only (a : abs) : Prop := Forall (fun x => match x with DReq _ => False | DAck _ => True end) (a_down a).
Lemma acks_only_step x a h : h <> Transmit -> acks_only a -> acks_only (astep x a h).
Proof.
  intros N P. unfold acks_only in *. destruct h as [| | | |n|n|n|n]; [congruence|..]; unfold astep.
  - destruct (a_down a) as [|[i|j] q] eqn:Eq; [rewrite Eq; exact P| |]; pose proof (Forall_inv P) as P1; pose proof (Forall_inv_tail P) as P2; [destruct P1|exact P2].
  - destruct (a_up a) as [|[p j cemi|v|d] q]; try exact P. split_if; [|split_if]; cbn; try exact P; (apply Forall_app; split; [exact P|repeat constructor]).
  - exact P.
  - apply (incl_Forall' _ _ _ (lose_incl n _)); exact P.
  - exact P.
  - apply (incl_Forall' _ _ _ (again_incl n _)); exact P.
  - exact P.
Qed.
Lemma acks_only_takes s0 frame a h : acks_only a -> takes s0 frame a h.
Proof. intros P _ i q E _. unfold acks_only in P. rewrite E in P. destruct (Forall_inv P). Qed.
Lemma round_down ip ch s0 frame s a : 0 <= ch < 256 -> fits s0 -> sendable frame -> sim ip ch s0 frame s a ->
  a_down a = [] -> a_up a = [] -> a_k a = a_g a -> (exists l, meaning s0 (frame (a_g a)) = Ok l) ->
  sim ip ch s0 frame (sy_run frame s [Transmit; Arrive_down; Arrive_up])
    (mkabs (a_g a + 1) (a_r a) (a_k a + 1) (a_l a) [] [] (a_dlv a ++ [a_g a]) (a_wr a) (a_bp a)).
Proof.
  intros Hch F0 Mf S D U K Hl.
  pose proof (sim_step_fixed ip ch s0 frame s a Transmit Hch F0 Mf S ltac:(discriminate) (no_arrival _ _ _ Transmit ltac:(discriminate))) as S1.
  assert (T : takes s0 frame (astep None a Transmit) Arrive_down).
  { intros _ i q X _. cbn [astep a_down] in X. rewrite D in X. injection X as <- _. exact Hl. }
  pose proof (sim_step_fixed ip ch s0 frame _ _ Arrive_down Hch F0 Mf S1 ltac:(discriminate) T) as S2.
  pose proof (sim_step_fixed ip ch s0 frame _ _ Arrive_up Hch F0 Mf S2 ltac:(discriminate) (no_arrival _ _ _ Arrive_up ltac:(discriminate))) as S3.
  cbn [sy_run fold_left]. unfold astep at 1 in S3. cbn [astep a_up a_down] in S3. rewrite D, U in S3. cbn [app a_down a_up a_k a_g a_r a_l a_dlv a_wr a_bp] in S3.
  rewrite K, Z.eqb_refl in S3. cbn [app a_down a_up a_k a_g a_r a_l a_dlv a_wr a_bp] in S3. rewrite Z.eqb_refl in S3. rewrite K. exact S3.
Qed.
Lemma rounds_down ip ch s0 frame n : 0 <= ch < 256 -> fits s0 -> sendable frame -> forall s a, sim ip ch s0 frame s a ->
  a_down a = [] -> a_up a = [] -> a_k a = a_g a -> (forall i, a_g a <= i < a_g a + Z.of_nat n -> exists l, meaning s0 (frame i) = Ok l) ->
  exists a', sim ip ch s0 frame (sy_run frame s (concat (repeat [Transmit; Arrive_down; Arrive_up] n))) a' /\
  a_down a' = [] /\ a_up a' = [] /\ a_k a' = a_k a + Z.of_nat n /\ a_g a' = a_g a + Z.of_nat n.
Proof.
  intros Hch F0 Mf. induction n as [|n IH]; intros s a S D U K Hl.
  - exists a. split; [exact S|]. repeat split; try assumption; lia.
  - cbn [repeat concat]. unfold sy_run. rewrite fold_left_app. fold (sy_run frame s [Transmit; Arrive_down; Arrive_up]).
    pose proof (round_down ip ch s0 frame s a Hch F0 Mf S D U K (Hl (a_g a) ltac:(lia))) as S1. fold (sy_run frame (sy_run frame s [Transmit; Arrive_down; Arrive_up]) (concat (repeat [Transmit; Arrive_down; Arrive_up] n))).
    destruct (IH _ _ S1 eq_refl eq_refl) as (a' & S' & D' & U' & K' & G'); [cbn; lia|cbn; intros i Hi; apply Hl; lia|].
    exists a'. split; [exact S'|]. cbn in K', G'. repeat split; try assumption; lia.
Qed.
Lemma turn_up ip ch s0 frame s a d n cemi : 0 <= ch < 256 -> fits s0 -> sendable frame -> sim ip ch s0 frame s a ->
  sy_up (sy_step frame s Turn) = sy_up s ++ [d] -> tunnelled d = Some (n, cemi) ->
  exists x, sim ip ch s0 frame (sy_step frame s Turn) (astep (Some (Some cemi, x)) a Turn).
Proof.
  intros Hch F0 Mf S E T. destruct (sim_step_taken ip ch s0 frame s a Turn Hch F0 Mf S (no_arrival _ _ _ Turn ltac:(discriminate))) as (x & Lx & S1).
  rewrite (m_up _ _ _ _ _ _ S1), (m_up _ _ _ _ _ _ S) in E. unfold astep in E. cbn [a_up] in E. rewrite map_app in E. apply app_inv_head in E.
  destruct x as [[[c|] y]|]; cbn [items_of map up_dgram] in E; try discriminate E.
  - injection E as E. rewrite <- E, request_tunnelled in T. injection T as _ <-. exists y. exact S1.
  - injection E as E. subst y. cbn in Lx. rewrite (junk_tunnelled d Lx) in T. discriminate T.
Qed.
