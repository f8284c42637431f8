(** Proofs about what the tunnelling client sends (C85). *)
From Coq Require Import String Ascii ZArith List Bool Lia ZifyBool.
From Verif Require Import Py Base Msg Address Dpt Tables LData Inet State Encode Decode Client.
From Verif Require Import SpecMsg SpecTables SpecWire SpecDecode SpecClient SpecSends.
From Verif Require Import MsgProofs TablesProofs AssocProofs EncodeProofs DecodeProofs SimProofs IpProofs OctetsProofs ClientProofs DeliveryProofs.
From Verif Require Import Props_Decode.
Import ListNotations.
Open Scope Z_scope.

Lemma channel_now ip c msgs es : well_made ip c msgs -> orderly false es ->
  exists ch, fold_left channel_step es (st_channel (c_state c)) = Some ch.
Proof.
  intros W O. pose proof (well_made_history ip c msgs es W O) as S. pose proof (s_good _ _ _ _ S) as (_ & _ & (_ & _ & _ & C & _) & _).
  rewrite <- (s_channel _ _ _ _ S). destruct (st_channel (c_state (after c es))) as [ch|]; [eauto|congruence].
Qed.

Lemma answer_sent ip c msgs es d ch : well_made ip c msgs -> orderly false (es ++ [EvData d]) ->
  fold_left channel_step es (st_channel (c_state c)) = Some ch ->
  o_sent (shown c es (EvData d)) =
  answer (c_state c) ip (c_lport c) ch (taken (st_remote (c_state c)) (trace c es)) d.
Proof.
  intros W O Ec. pose proof (orderly_prefix _ _ _ O) as O1. pose proof (well_made_history ip c msgs es W O1) as S.
  destruct (well_made_allowed ip c msgs es _ W O) as [T Od]. pose proof (s_good _ _ _ _ S) as Gd. unfold answer.
  destruct (connect_answer d) eqn:E.
  - destruct (step_answer ip _ d Gd T Od E) as (ch1 & Ec1 & X). unfold shown. rewrite X. cbn [snd o_sent].
    pose proof Gd as (_ & _ & F & _). destruct (C31_netip d (c_state (after c es)) Od (proj1 F)) as (_ & _ & _ & H).
    rewrite H, (s_channel _ _ _ _ S), Ec in Ec1. rewrite Ec1, (s_port _ _ _ _ S). reflexivity.
  - destruct (tunnelled d) as [[n cemi]|] eqn:Ht.
    + set (k := taken _ _). destruct (n =? k mod 256) eqn:En.
      * pose proof (due_request ip c msgs es d n cemi W O Ht ltac:(unfold k in En; lia)) as X. cbv zeta in X.
        destruct (meaning (c_state c) cemi); [|apply X]. destruct X as (_ & _ & ch1 & E1 & ->). congruence.
      * destruct (undue_request ip c msgs es d n cemi W O Ht ltac:(unfold k in En; lia)) as (_ & _ & _ & ch1 & E1 & X).
        cbv zeta in X. fold k in X. rewrite X. rewrite (Z.eqb_sym (n + 1)). destruct (k mod 256 =? n + 1) eqn:E2; [|reflexivity].
        replace ch1 with ch by congruence. replace (k mod 256) with (n + 1) by lia. reflexivity.
    + destruct (step_other ip _ d Gd Od E Ht) as [_ X]. unfold shown. rewrite X. reflexivity.
Qed.

Lemma made_sent ip c msgs es : well_made ip c msgs -> orderly false es ->
  o_sent (shown c es EvMade) = [connect_request ip (c_lport c)].
Proof.
  intros W O. pose proof (well_made_history ip c msgs es W O) as S. unfold shown.
  rewrite (step_made ip) by exact (s_good _ _ _ _ S). cbn. rewrite (s_port _ _ _ _ S). reflexivity.
Qed.

Lemma link_encoded m st b : st_medium st = Knxnet_ip -> link_request m = true -> fst (encode_msg m st) = Ok b ->
  exists ch cemi, st_channel st = Some ch /\ b = tunnelling_request ch (st_local st) cemi.
Proof.
  intros M L E. destruct (request_cemi m st L) as [x H]. specialize (H Knxnet_ip).
  assert (on_medium Knxnet_ip st = st) as X by (destruct st; cbn in M; subst; reflexivity).
  rewrite X in H. rewrite H in E. destruct x as [cemi|]; [|discriminate E]. cbn [rbind] in E.
  unfold wire in E. rewrite M in E. destruct (st_channel st) as [ch|]; [|discriminate E]. injection E as <-. eauto.
Qed.
Lemma turn_one c l : (length (snd (turn c l)) <= 1)%nat.
Proof.
  destruct l as [|m l]; [cbn; lia|]. cbn [turn]. destruct (message_repr m); [|cbn; lia].
  destruct (fst (encode_msg m (c_state c))); [|cbn; lia]. destruct (c_transport c); cbn; lia.
Qed.
Lemma turned_one c : (length (snd (turned c)) <= 1)%nat.
Proof.
  unfold turned. destruct (c_writer c) as [l|l| |e]; try (cbn; lia); [|apply turn_one].
  destruct (c_connected c); [apply turn_one|cbn; lia].
Qed.
Lemma pending_incl ip c msgs es : well_made ip c msgs -> orderly false es -> incl (pending (c_writer (after c es))) msgs.
Proof.
  intros W O m I. destruct (well_made_start ip c msgs W) as (G & T & _ & Wr & _). rewrite <- T in O.
  destruct (writer_history ip c es msgs G Wr O) as (dn & rest & -> & _ & X). apply in_or_app. right.
  destruct (c_writer (after c es)) as [l|l| |e]; cbn [pending] in I; try contradiction; [destruct X as [<- _]|subst l]; exact I.
Qed.
Lemma writer_sent_one ip c msgs es : well_made ip c msgs -> orderly false es -> Forall (fun m => link_request m = true) msgs ->
  o_sent (shown c es EvWriter) = [] \/
  exists m ch cemi, In m msgs /\ fold_left channel_step es (st_channel (c_state c)) = Some ch /\
    fst (encode_msg m (c_state (after c es))) = Ok (tunnelling_request ch (fold_left local_step es (st_local (c_state c))) cemi) /\
    o_sent (shown c es EvWriter) = [tunnelling_request ch (fold_left local_step es (st_local (c_state c))) cemi].
Proof.
  intros W O L. pose proof (well_made_history ip c msgs es W O) as S. destruct (shown_writer ip c es S) as [-> _].
  pose proof (turned_one (after c es)) as N. destruct (snd (turned (after c es))) as [|b [|b2 r]] eqn:E; [auto| |cbn in N; lia].
  right. destruct (turned_sent (after c es) b) as (m & Im & Eb); [rewrite E; left; reflexivity|].
  apply (pending_incl ip c msgs es W O) in Im. rewrite Forall_forall in L. pose proof (s_good _ _ _ _ S) as (_ & _ & F & _).
  destruct (link_encoded m _ b (proj1 F) (L m Im) Eb) as (ch & cemi & E1 & ->).
  rewrite (s_channel _ _ _ _ S) in E1. rewrite (s_local _ _ _ _ S) in *. eauto 8.
Qed.

(** Services. *)
Lemma service_request ch n cemi x : of_service x (tunnelling_request ch n cemi) = (1056 =? x).
Proof. reflexivity. Qed.
Lemma sent_snoc c es e : sent c (es ++ [e]) = sent c es ++ o_sent (shown c es e).
Proof.
  unfold sent. rewrite observations_app, flat_map_app. f_equal. unfold observations, shown. cbn [client_run].
  destruct (client_step (after c es) e). cbn. rewrite app_nil_r. reflexivity.
Qed.
Lemma how_many_app {A} (f : A -> bool) a b : how_many f (a ++ b) = (how_many f a + how_many f b)%nat.
Proof. unfold how_many. rewrite filter_app, app_length. reflexivity. Qed.
Lemma how_many_one {A} (f : A -> bool) a : how_many f [a] = if f a then 1%nat else 0%nat.
Proof. unfold how_many. cbn. destruct (f a); reflexivity. Qed.

Lemma answer_service s ip port ch k d x : x = 0x0205 \/ x = 0x0207 ->
  how_many (of_service x) (answer s ip port ch k d) = if (x =? 0x0207) && connect_answer d then 1%nat else 0%nat.
Proof.
  intros X. unfold answer. destruct (connect_answer d) eqn:E.
  - rewrite andb_true_r. assert (exists ch', channel_after d (Some ch) = Some ch') as [ch' ->].
    { unfold channel_after. destruct (ip_service d) as [[sv [|a [|b [|c0 [|sta r]]]]]|]; eauto.
      destruct (_ && _); [eauto|]. destruct (_ && _); eauto. }
    rewrite how_many_one. destruct X as [-> | ->]; reflexivity.
  - rewrite andb_false_r. destruct (tunnelled d) as [[n cemi]|]; [|reflexivity].
    destruct (n =? k mod 256); [destruct (meaning s cemi)|destruct (n + 1 =? k mod 256)]; try reflexivity;
    rewrite how_many_one; destruct X as [-> | ->]; reflexivity.
Qed.
Lemma sent_counts ip c msgs es : well_made ip c msgs -> orderly false es -> Forall (fun m => link_request m = true) msgs ->
  how_many (of_service 0x0205) (sent c es) = how_many is_made es /\
  how_many (of_service 0x0207) (sent c es) = how_many is_answer es.
Proof.
  intros W O L. induction es as [|e es IH] using rev_ind; [split; reflexivity|].
  pose proof (orderly_prefix _ _ _ O) as O1. destruct (IH O1) as [I1 I2].
  rewrite sent_snoc, !how_many_app, I1, I2, !how_many_one. clear IH I1 I2. destruct e as [| |d|]; cbn [is_made is_answer].
  - rewrite (made_sent ip c msgs es W O1). rewrite !how_many_one. split; reflexivity.
  - split; reflexivity.
  - destruct (channel_now ip c msgs es W O1) as [ch Ec]. rewrite (answer_sent ip c msgs es d ch W O Ec).
    rewrite !answer_service by auto. cbn [Z.eqb andb]. split; [reflexivity|]. destruct (connect_answer d); reflexivity.
  - destruct (writer_sent_one ip c msgs es W O1 L) as [-> |(m & ch & cemi & _ & _ & _ & ->)]; [split; reflexivity|].
    rewrite !how_many_one. split; reflexivity.
Qed.
Lemma sent_services ip c msgs es : well_made ip c msgs -> orderly false es -> Forall (fun m => link_request m = true) msgs ->
  Forall (fun d => of_services [0x0205; 0x0207; 0x0420; 0x0421] d = true) (sent c es).
Proof.
  intros W O L. induction es as [|e es IH] using rev_ind; [constructor|].
  pose proof (orderly_prefix _ _ _ O) as O1. rewrite sent_snoc, Forall_app. split; [exact (IH O1)|]. destruct e as [| |d|].
  - rewrite (made_sent ip c msgs es W O1). repeat constructor.
  - constructor.
  - destruct (channel_now ip c msgs es W O1) as [ch Ec]. rewrite (answer_sent ip c msgs es d ch W O Ec). unfold answer.
    destruct (connect_answer d); [destruct (channel_after d (Some ch)); repeat constructor|].
    destruct (tunnelled d) as [[n cemi]|]; [|constructor].
    destruct (n =? _); [destruct (meaning _ _)|destruct (n + 1 =? _)]; repeat constructor.
  - destruct (writer_sent_one ip c msgs es W O1 L) as [-> |(m & ch & cemi & _ & _ & _ & ->)]; repeat constructor.
Qed.

(** Services nobody listens to. *)
Lemma unheard_decode d st : octets d -> (4 <= length d)%nat -> of_services heard d = false -> st_medium st = Knxnet_ip ->
  decode_msg CNetIP d st = (Ok (RList []), st).
Proof.
  intros O Hl N M. rewrite decode_ip by exact M. destruct d as [|h [|v [|s1 [|s2 r]]]]; cbn [length] in Hl; try lia.
  rewrite !octets_cons in O. rewrite ip_header by tauto.
  unfold of_services, heard, existsb, of_service, ip_service in N.
  destruct ((h =? 6) && (v =? 16)); [|reflexivity].
  unfold services. repeat match goal with |- context [if (?x =? ?y) && (?x2 =? ?y2) then _ else _] =>
    destruct ((x =? y) && (x2 =? y2)) eqn:?E; [exfalso; lia|] end. reflexivity.
Qed.
Lemma step_unheard ip c d : good ip c -> octets d -> (4 <= length d)%nat -> of_services heard d = false ->
  client_step c (EvData d) = (c, mkobs [] (Some (Ok (RList [])))).
Proof.
  intros G O Hl N. pose proof G as (_ & _ & F & Ho & _).
  rewrite (step_list ip c d [] (c_state c) (c_with_state (c_state c) c) G O); [|apply unheard_decode; auto; apply F|reflexivity].
  destruct c; cbn in *. subst. reflexivity.
Qed.
Lemma channel_zero es : forall ch, (forall d, In (EvData d) es -> connect_answer d = false) ->
  (ch = Some 0) -> fold_left channel_step es ch = Some 0.
Proof.
  induction es as [|e es IH]; intros ch N E; [exact E|]. cbn [fold_left]. apply IH; [intros d I; apply N; right; exact I|].
  subst ch. destruct e as [| |d|]; try reflexivity. specialize (N d (or_introl eq_refl)). cbn [channel_step].
  unfold connect_answer in N. unfold channel_after. destruct (ip_service d) as [[sv [|a [|b [|c0 [|sta r]]]]]|]; try reflexivity.
  destruct (sv =? 518); cbn [andb] in *; [|destruct (_ && _); reflexivity].
  destruct (sta =? 0); cbn [andb] in *; [rewrite N|]; destruct (_ =? 522); reflexivity.
Qed.
Lemma run_cons c e es : observations c (e :: es) = snd (client_step c e) :: observations (fst (client_step c e)) es /\
  after c (e :: es) = after (fst (client_step c e)) es.
Proof.
  unfold observations, after. cbn [client_run]. destruct (client_step c e) as [c1 o]. cbn [fst snd].
  destruct (client_run c1 es). split; reflexivity.
Qed.
