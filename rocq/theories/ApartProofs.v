(** Changing some associations leaves the others alone (C99). *)
From Coq Require Import String ZArith NArith List Bool Lia ZifyBool Permutation.
From Verif Require Import Py Base Msg Address Dpt Tables LData Inet State Encode Decode.
From Verif Require Import SpecMsg SpecTables SpecWire SpecDecode SpecOrder SpecApart
  MsgProofs TablesProofs AssocProofs DecodeProofs SimProofs OrderProofs.
Import ListNotations.
Open Scope Z_scope.

(** ** What calls do to addresses and ASAPs they do not mention *)

Definition listing (t t' : address_table) (named gone : list Z) : Prop :=
  at_ia t' = at_ia t /\
  (forall g, ~ In g named -> (In g (vals (at_addrs t')) <-> In g (vals (at_addrs t)))) /\
  (forall g, ~ In g gone -> In g (vals (at_addrs t)) -> In g (vals (at_addrs t'))).
Lemma listing_refl t : listing t t [] [].
Proof. split; [reflexivity|]. split; [tauto|auto]. Qed.
Lemma listing_trans t t1 t2 n g n2 g2 : listing t t1 n g -> listing t1 t2 n2 g2 -> listing t t2 (n ++ n2) (g ++ g2).
Proof.
  intros (I1 & N1 & G1) (I2 & N2 & G2). split; [congruence|]. split; intros x H; rewrite in_app_iff in H.
  - rewrite N2 by tauto. apply N1. tauto.
  - intros K. apply G2; [tauto|]. apply G1; tauto.
Qed.
Lemma insert_listing l : forall t t', assoc_insert l t = (Ok tt, t') -> listing t t' (vals l) [].
Proof.
  induction l as [|a r IH]; intros t t'; cbn [assoc_insert].
  - intros [= <-]. apply listing_refl.
  - destruct (negb (mem_addr a (at_addrs t)) && negb (addr_is a (at_ia t))) eqn:E.
    + destruct (at_add a t) as [[[]|e] t1] eqn:Ea; [|discriminate]. intros H. apply IH in H.
      apply at_add_ok in Ea. destruct Ea as (_ & Ei & Ea). apply andb_true_iff in E. destruct E as [E _].
      apply negb_true_iff in E. rewrite E in Ea. cbn in Ea. destruct Ea as [_ P]. apply (Permutation_map a_val) in P.
      apply (listing_trans t t1 t' [a_val a] [] (vals r) []); [|exact H]. split; [exact Ei|]. split; intros g N.
      * split; intros K; [apply (Permutation_in _ P) in K|apply (Permutation_in _ (Permutation_sym P))]; cbn in *; tauto.
      * intros K. apply (Permutation_in _ (Permutation_sym P)). right. exact K.
    + intros H. apply IH in H. apply (listing_trans t t t' [a_val a] [] (vals r) []); [|exact H].
      split; [reflexivity|]. split; [tauto|auto].
Qed.
Lemma removal_listing a l : forall t d t' d', disassoc_loop a l t d = (Ok tt, (t', d')) -> listing t t' (vals l) (vals l).
Proof.
  induction l as [|x r IH]; intros t d t' d'; cbn [disassoc_loop].
  - intros [= <- <-]. apply listing_refl.
  - destruct (if negb (addr_eqb x (at_ia t)) then at_remove x t else (Ok tt, t)) as [[u|e] t1] eqn:E; [|discriminate].
    destruct (dget asap_eqb a d) as [l0|]; [|discriminate]. destruct (remove_first x l0) as [l1|]; [|discriminate].
    intros H. apply IH in H. apply (listing_trans t t1 t' [a_val x] [a_val x] (vals r) (vals r)); [|exact H].
    destruct (negb (addr_eqb x (at_ia t))).
    2: { injection E as _ <-. split; [reflexivity|]. split; [tauto|auto]. }
    unfold at_remove in E. destruct (remove_first x (at_addrs t)) as [y|] eqn:R; [|discriminate].
    injection E as _ <-. apply remove_first_Some in R. destruct R as (b & Eb & P). apply (Permutation_map a_val) in P.
    cbn [map] in P. rewrite Eb in P. pose proof (Permutation_map a_val (sort_perm y)) as Q.
    split; [reflexivity|]. split; cbn [at_addrs]; intros g N.
    + split; intros K.
      * apply (Permutation_in _ Q) in K. apply (Permutation_in _ (Permutation_sym P)). right. exact K.
      * apply (Permutation_in _ (Permutation_sym Q)). apply (Permutation_in _ P) in K. destruct K as [K|K]; [|exact K].
        elim N. left. exact K.
    + intros K. apply (Permutation_in _ (Permutation_sym Q)). apply (Permutation_in _ P) in K. destruct K as [K|K]; [|exact K].
      elim N. left. exact K.
Qed.
Lemma do_listing s c s' : as_do s c = (Ok tt, s') -> listing (as_table s) (as_table s') (mentioned [c]) (withdrawn [c]).
Proof.
  destruct c as [a l|a l]; cbn [as_do mentioned withdrawn flat_map]; rewrite app_nil_r; intros H.
  - apply associate_ok in H. apply insert_listing. tauto.
  - apply disassociate_ok in H. destruct H as [H _]. exact (removal_listing _ _ _ _ _ _ H).
Qed.
Lemma run_listing h : forall s os s', as_run s h = (os, s') -> all_ok os ->
  listing (as_table s) (as_table s') (mentioned h) (withdrawn h).
Proof.
  induction h as [|c r IH]; intros s os s' H A.
  - injection H as <- <-. apply listing_refl.
  - apply as_run_cons in H. destruct H as (o & s1 & os1 & E1 & E2 & ->). inversion A; subst.
    pose proof (do_listing _ _ _ E1) as L. specialize (IH _ _ _ E2 H2).
    pose proof (listing_trans _ _ _ _ _ _ _ L IH) as X. unfold mentioned, withdrawn in *. cbn [flat_map] in *.
    rewrite !app_nil_r in X. exact X.
Qed.

Lemma do_entry s c s' b : as_do s c = (Ok tt, s') -> about c <> asap_value b ->
  dget asap_eqb b (as_addresses s') = dget asap_eqb b (as_addresses s).
Proof.
  assert (D : forall a l (d : list (asap * list address)), asap_value a <> asap_value b -> dget asap_eqb b (dset asap_eqb a l d) = dget asap_eqb b d).
  { intros a l d N. rewrite (dget_dset _ _ asap_eqb_spec). unfold asap_eqb at 1.
    destruct (asap_value a =? asap_value b) eqn:E; [lia|reflexivity]. }
  destruct c as [a l|a l]; cbn [as_do about]; intros H N.
  - apply associate_ok in H. destruct H as (-> & _). unfold asap_append. destruct (dget asap_eqb a (as_addresses s)); apply D; exact N.
  - apply disassociate_ok in H. destruct H as [H _]. revert H. generalize (as_table s) as t, (as_addresses s) as d.
    induction l as [|x r IH]; intros t d; cbn [disassoc_loop].
    + intros [= _ <-]. reflexivity.
    + destruct (if negb (addr_eqb x (at_ia t)) then at_remove x t else (Ok tt, t)) as [[u|e] t1]; [|discriminate].
      destruct (dget asap_eqb a d) as [l0|]; [|discriminate]. destruct (remove_first x l0) as [l1|]; [|discriminate].
      intros H. apply IH in H. rewrite H. apply D. exact N.
Qed.
Lemma run_entry h : forall s os s' b, as_run s h = (os, s') -> all_ok os -> ~ In (asap_value b) (map about h) ->
  dget asap_eqb b (as_addresses s') = dget asap_eqb b (as_addresses s).
Proof.
  induction h as [|c r IH]; intros s os s' b H A N.
  - injection H as <- <-. reflexivity.
  - apply as_run_cons in H. destruct H as (o & s1 & os1 & E1 & E2 & ->). inversion A; subst. cbn in N.
    rewrite (IH _ _ _ _ E2 H2) by tauto. apply (do_entry _ _ _ _ E1). tauto.
Qed.
Lemma unmentioned_balance v g h : ~ In g (mentioned h) -> zsum (map (balance1 v g) h) = 0.
Proof.
  assert (O : forall l, ~ In g l -> occ g l = 0).
  { intros l N. pose proof (zlen_nonneg (filter (Z.eqb g) l)). rewrite occ_In in N. unfold occ in *. lia. }
  induction h as [|c r IH]; intros N; [reflexivity|]. unfold mentioned in N. cbn [flat_map] in N. rewrite in_app_iff in N.
  cbn [map zsum fold_right]. fold (zsum (map (balance1 v g) r)). rewrite IH by tauto.
  destruct c as [a l|a l]; cbn [balance1]; destruct (asap_value a =? v); rewrite ?O by tauto; reflexivity.
Qed.

(** ** Two pairs of tables that agree about some addresses and some ASAPs *)

Record close (P Q : Z -> Prop) (a : assoc_table) (go : gobj_table) (a' : assoc_table) (go' : gobj_table) : Prop := mkclose {
  cl_ia : at_ia (as_table a') = at_ia (as_table a);
  cl_listed : forall x, P x -> listed a' x = listed a x;
  cl_reached : forall x, P x -> listed a x = true -> reached a' go' x = reached a go x;
  cl_tsaps : forall b, Q (asap_value b) ->
    match as_get_tsaps a b, as_get_tsaps a' b with
    | Ok l, Ok l' => (l = [] <-> l' = [])
    | Err e, Err e' => e = e'
    | _, _ => False
    end;
  cl_sends : forall b, Q (asap_value b) ->
    match sends_to a b, sends_to a' b with
    | Ok l, Ok l' => vals l = vals l'
    | Err e, Err e' => e = e'
    | _, _ => False
    end;
  cl_type : forall b, Q (asap_value b) -> dget asap_eqb b go' = dget asap_eqb b go
}.

Lemma filter_dset_out {V} (p : Z -> bool) (a : asap) (c : V) (go : list (asap * V)) : p (asap_value a) = false ->
  filter (fun q => p (asap_value (fst q))) (dset asap_eqb a c go) = filter (fun q => p (asap_value (fst q))) go.
Proof.
  intros H. induction go as [|[b d] go IH]; cbn [dset].
  - cbn. rewrite H. reflexivity.
  - destruct (asap_eqb b a) eqn:E.
    + apply asap_eqb_spec in E. cbn [filter fst]. rewrite E, H. reflexivity.
    + cbn [filter fst]. rewrite IH. reflexivity.
Qed.
Lemma filter_ddel_out {V} (p : Z -> bool) (a : asap) (go : list (asap * V)) : p (asap_value a) = false ->
  filter (fun q => p (asap_value (fst q))) (ddel asap_eqb a go) = filter (fun q => p (asap_value (fst q))) go.
Proof.
  intros H. induction go as [|[b d] go IH]; cbn [ddel]; [reflexivity|].
  destruct (asap_eqb b a) eqn:E.
  - apply asap_eqb_spec in E. cbn [filter fst]. rewrite E, H. reflexivity.
  - cbn [filter fst]. rewrite IH. reflexivity.
Qed.
Lemma filter_retyped (p : Z -> bool) k : forall go, (forall v, In v (retyped k) -> p v = false) ->
  filter (fun q => p (asap_value (fst q))) (go_after go k) = filter (fun q => p (asap_value (fst q))) go.
Proof.
  induction k as [|c k IH]; intros go H; [reflexivity|]. cbn [go_after]. rewrite IH by (intros; apply H; right; assumption).
  destruct c as [a c|a]; cbn [go_do snd].
  - unfold go_associate. apply filter_dset_out. apply H. left. reflexivity.
  - unfold go_disassociate. destruct (dget asap_eqb a go); [|reflexivity]. apply filter_ddel_out. apply H. left. reflexivity.
Qed.
Lemma type_retyped b k : forall go, ~ In (asap_value b) (retyped k) -> dget asap_eqb b (go_after go k) = dget asap_eqb b go.
Proof.
  induction k as [|c k IH]; intros go H; [reflexivity|]. cbn [retyped map] in H. cbn [go_after]. rewrite IH by (cbn in H; tauto).
  destruct c as [a c|a]; cbn [go_do snd].
  - unfold go_associate. rewrite (dget_dset _ _ asap_eqb_spec). unfold asap_eqb at 1.
    destruct (asap_value a =? asap_value b) eqn:E; [cbn in H; lia|reflexivity].
  - unfold go_disassociate. destruct (dget asap_eqb a go); [|reflexivity]. cbn [snd].
    assert (N : asap_value a <> asap_value b) by (cbn in H; tauto). clear - N.
    induction go as [|[x d] go IH]; [reflexivity|]. cbn [ddel dget]. destruct (asap_eqb x a) eqn:E.
    + apply asap_eqb_spec in E. destruct (asap_eqb x b) eqn:E2; [apply asap_eqb_spec in E2; congruence|reflexivity].
    + cbn [dget]. rewrite IH. reflexivity.
Qed.

Lemma targets_vals t t' l : (forall x, In x l -> (known t (a_val x) <-> known t' (a_val x))) ->
  match targets t l, targets t' l with
  | Ok r, Ok r' => vals r = vals r'
  | Err e, Err e' => e = e'
  | _, _ => False
  end.
Proof.
  intros H. destruct (Forall_Exists_dec (fun x => known t (a_val x)) (fun x => known_dec t (a_val x)) l) as [F|F].
  - rewrite Forall_forall in F. destruct (targets_known t l F) as (L & -> & V).
    destruct (targets_known t' l) as (L' & -> & V'); [intros x Hx; apply H, F; assumption|]. congruence.
  - apply Exists_exists in F. destruct F as (x & Hx & N). rewrite (targets_unknown t l x Hx N).
    rewrite (targets_unknown t' l x Hx); [reflexivity|]. rewrite <- H by assumption. exact N.
Qed.

Definition spared_address tb l h (h' : list as_call) (k : list go_call) (x : Z) : Prop :=
  ~ In x (mentioned h') /\ forall v, In v (retyped k) -> balance tb l h v x = 0.
Definition spared_asap tb l h (s : assoc_table) (h' : list as_call) (k : list go_call) (v : Z) : Prop :=
  ~ In v (map about h') /\ ~ In v (retyped k) /\
  forall g, 0 < balance tb l h v g -> ~ In g (withdrawn h') /\ (known (as_table s) g \/ ~ In g (mentioned h')).
Lemma apart_close tb l h h' k s s' go : built tb l h s -> built tb l (h ++ h') s' ->
  close (spared_address tb l h h' k) (spared_asap tb l h s h' k) s go s' (go_after go k).
Proof.
  intros B B'. pose proof B as (s0 & os & N & R & A). pose proof B' as (s0' & os' & N' & R' & A').
  rewrite N in N'. injection N' as <-. apply as_run_app in R'. destruct R' as (o1 & s1 & o2 & R1 & R2 & ->).
  rewrite R in R1. injection R1 as <- <-. apply Forall_app in A'. destruct A' as [_ A2]. fold (all_ok o2) in A2.
  destruct (run_listing _ _ _ _ R2 A2) as (I & L & G). destruct (built_counts _ _ _ _ B) as [_ C].
  split.
  - exact I.
  - intros x [X _]. apply eq_true_iff_eq. rewrite !listed_In. apply L. exact X.
  - intros x [X Y] K. apply listed_In in K. pose proof (proj2 (L x X) K) as K'.
    pose proof (reached_balance tb l h s go x B (or_introl K)) as E.
    pose proof (reached_balance tb l (h ++ h') s' (go_after go k) x B' (or_introl K')) as E'.
    assert (BB : forall v, balance tb l (h ++ h') v x = balance tb l h v x).
    { intros v. unfold balance. rewrite app_assoc, map_app. unfold zsum. rewrite fold_right_app.
      pose proof (unmentioned_balance v x h' X) as Z0. unfold zsum in Z0. rewrite Z0. reflexivity. }
    destruct (reached s go x) as [r|e], (reached s' (go_after go k) x) as [r'|e'].
    + destruct E as [-> _], E' as [-> _]. f_equal.
      rewrite (filter_ext _ (fun p => (fun v => 0 <? balance tb l h v x) (asap_value (fst p)))) by (intros; rewrite BB; reflexivity).
      apply (filter_retyped (fun v => 0 <? balance tb l h v x)). intros v Hv. rewrite Y by assumption. reflexivity.
    + destruct E as [_ [v V]], E' as [_ V']. specialize (V' v). rewrite BB in V'. lia.
    + destruct E as [_ V], E' as [_ [v V']]. specialize (V v). rewrite BB in V'. lia.
    + destruct E as [-> _], E' as [-> _]. reflexivity.
  - intros b (X & _). unfold as_get_tsaps. rewrite (run_entry _ _ _ _ b R2 A2 X).
    destruct (dget asap_eqb b (as_addresses s)) as [e|]; [|reflexivity]. destruct e; cbn; split; congruence.
  - intros b (X & _ & Y). rewrite !sends_to_targets, (run_entry _ _ _ _ b R2 A2 X).
    destruct (dget asap_eqb b (as_addresses s)) as [e|] eqn:Eb; [|reflexivity]. apply targets_vals.
    intros x Hx. destruct (Y (a_val x)) as [Y1 Y2].
    { rewrite <- C, (dget_entry _ _ _ Eb). apply occ_In. apply in_map. exact Hx. }
    unfold known. rewrite I. split; intros [K|K]; [| |destruct Y2 as [Y2|Y2]|].
    + left. apply G; assumption.
    + right. exact K.
    + exact Y2.
    + left. apply (L _ Y2). exact K.
    + right. exact K.
  - intros b (_ & X & _). apply type_retyped. exact X.
Qed.

(** ** States with such tables *)

Definition near (P Q : Z -> Prop) (s s' : state) : Prop :=
  (exists a go a' go', st_assoc s = Some a /\ st_assoc s' = Some a' /\ st_gobj s = Some go /\ st_gobj s' = Some go' /\
     close P Q a go a' go') /\
  st_medium s' = st_medium s /\ st_ldata s' = st_ldata s /\ st_asap s' = st_asap s /\
  st_apci s' = st_apci s /\ st_address_type s' = st_address_type s /\ st_remote s' = st_remote s /\
  st_local s' = st_local s /\ st_channel s' = st_channel s.
Lemma nr_ia P Q s s' : near P Q s s' -> st_individual_address s' = st_individual_address s.
Proof.
  intros ((a & go & a' & go' & E & E' & _ & _ & X) & _). unfold st_individual_address. rewrite E, E'. cbn.
  unfold as_individual_address. rewrite (cl_ia _ _ _ _ _ _ X). reflexivity.
Qed.
Ltac nr_get := let s := fresh in let s' := fresh in let H := fresh in
  intros s s' H; rewrite ?(nr_ia _ _ _ _ H);
  destruct H as (_ & ? & ? & ? & ? & ? & ? & ? & ?);
  repeat match goal with E : _ s' = _ s |- _ => rewrite E; clear E end; reflexivity.
Ltac nr_set := let s := fresh in let s' := fresh in let H := fresh in
  intros s s' H; unfold near in *; cbn; intuition congruence.
Ltac nr_tac := repeat match goal with
  | |- sim _ (mret _) => apply sim_ret
  | |- sim _ (mraise _) => apply sim_raise
  | |- sim _ (mlift _) => apply sim_lift
  | |- sim _ (mmodify _) => apply sim_modify; nr_set
  | |- sim _ (mbind mget _) => apply sim_get; [nr_get|intros]
  | |- sim _ (mbind _ _) => apply sim_bind; [|intros]
  | |- sim _ (match ?x with _ => _ end) => destruct x
  | |- sim _ (let '(_, _) := ?x in _) => destruct x
  end.

Lemma nr_outcome (P Q : Z -> Prop) a go a' go' k t : close P Q a go a' go' -> P (t_dst t) ->
  telegram_outcome a go k t = telegram_outcome a' go' k t.
Proof.
  intros [I L X _ _ _] H. unfold telegram_outcome, group_outcome, individual_accepts. rewrite I, (L _ H).
  destruct (listed a (t_dst t)) eqn:K; [rewrite (X _ H K)|]; reflexivity.
Qed.
Lemma nr_msg_code (P Q : Z -> Prop) cemi : octets cemi -> (forall k t, cemi_telegram cemi = Some (k, t) -> P (t_dst t)) ->
  sim (near P Q) (d_msg_code cemi).
Proof.
  intros O H. destruct (cemi_telegram cemi) as [[k t]|] eqn:E.
  - intros s s' N. pose proof N as ((a & go & a' & go' & Ea & Ea' & Eg & Eg' & C) & _).
    destruct (msg_code_some cemi s a go k t Ea Eg O E) as [_ ->].
    destruct (msg_code_some cemi s' a' go' k t Ea' Eg' O E) as [_ ->]. cbn [fst snd]. split.
    + exact (nr_outcome P Q _ _ _ _ k t C (H k t eq_refl)).
    + clear - N. unfold near in *. cbn. intuition congruence.
  - clear H O. unfold cemi_telegram in E. destruct cemi as [|code [|info r]];
      [intros s s' N; split; [reflexivity|exact N]|intros s s' N; split; [reflexivity|exact N]|].
    unfold d_msg_code, octect. intros s s' N. unfold mbind, mlift. unfold data_ind, data_con in E.
    destruct (code =? 0x29); [|destruct (code =? 0x2E); [|split; [reflexivity|exact N]]];
      unfold d_cemi_ldata, mbind, mlift;
      destruct (zdrop info r) as [|c1 [|c2 [|s1 [|s2 [|d1 [|d2 [|len [|tpci [|apci data]]]]]]]]]; try discriminate E;
      split; try reflexivity; exact N.
Qed.

(** Decoding that does not look at the state. *)
Definition steady {A} (k : M state A) : Prop := exists r, forall s, k s = (r, s).
Lemma steady_sim {A} R (k : M state A) : steady k -> sim R k.
Proof. intros [r H] s s' N. rewrite !H. split; [reflexivity|exact N]. Qed.
Lemma steady_ret {A} (a : A) : steady (mret a).
Proof. eexists. intros. reflexivity. Qed.
Lemma steady_lift {A} (r : res A) : steady (mlift r).
Proof. eexists. intros. reflexivity. Qed.
Lemma steady_bind {A B} (m : M state A) (f : A -> M state B) : steady m -> (forall a, steady (f a)) -> steady (mbind m f).
Proof.
  intros [r H] F. destruct r as [a|e].
  - destruct (F a) as [q G]. exists q. intros s. unfold mbind. rewrite H. apply G.
  - exists (Err e). intros s. unfold mbind. rewrite H. reflexivity.
Qed.
Lemma steady_next {A B} (r : res A) (f : A -> M state B) : (forall a, r = Ok a -> steady (f a)) -> steady (mbind (mlift r) f).
Proof.
  intros F. destruct r as [a|e].
  - destruct (F a eq_refl) as [q G]. exists q. intros s. apply G.
  - exists (Err e). reflexivity.
Qed.
Ltac st_tac := repeat match goal with
  | |- steady (mret _) => apply steady_ret
  | |- steady (mlift _) => apply steady_lift
  | |- steady (mbind _ _) => apply steady_bind; [|intros]
  | |- steady (match ?x with _ => _ end) => destruct x
  | |- steady (let '(_, _) := ?x in _) => destruct x
  end.
Lemma octect_ok m p : octect m = Ok p -> m = fst p :: snd p.
Proof. destruct m; cbn; [discriminate|]. intros [= <-]. reflexivity. Qed.
Ltac take_octet := apply steady_next; let p := fresh in let E := fresh in intros [? p] E; apply octect_ok in E; cbn [fst snd] in E; subst.
Lemma usb_steady m : octets m -> usb_cemi m = None -> steady (d_report_identifier m).
Proof.
  assert (F : forall m, steady (d_feature_identifier m)) by (intros; unfold d_feature_identifier; st_tac).
  assert (S : forall m, steady (d_service_identifier m)) by (intros; unfold d_service_identifier; st_tac; apply F).
  intros O H. unfold d_report_identifier. take_octet. destruct (z =? 1) eqn:E1; [|apply steady_ret].
  unfold d_packet_info. take_octet. rewrite nibble_mod. destruct (z0 mod 16 =? 3) eqn:Ei; [|apply steady_ret].
  take_octet. cbn [usb_cemi] in H. rewrite E1, Ei in H. cbn [andb] in H.
  rewrite !octets_cons in O. destruct O as (_ & _ & _ & O). apply (octets_ztake z1) in O.
  unfold d_protocol_version. destruct (ztake z1 _) as [|v q]; [eexists; intros; reflexivity|].
  apply steady_next. intros [v' q'] [= <- <-]. destruct (v =? 0) eqn:Ev; [|apply steady_ret].
  unfold d_header_length. destruct q as [|h q]; [eexists; intros; reflexivity|].
  apply steady_next. intros [v' q'] [= <- <-]. destruct (h =? 8) eqn:Eh; [|apply steady_ret].
  unfold d_body_length. destruct q as [|hi [|lo r2]]; [eexists; intros; reflexivity|eexists; intros; reflexivity|].
  rewrite octets_cons in O. destruct O as (_ & O). rewrite octets_cons in O. destruct O as (_ & O).
  rewrite octets_short by assumption. apply steady_next. intros [v' q'] X.
  assert (Y : v' = 256 * hi + lo /\ q' = r2) by (split; congruence). destruct Y as [-> ->]. clear X. cbn [andb] in H.
  rewrite !octets_cons in O. destruct O as (_ & _ & O). apply (octets_ztake (256 * hi + lo + 4)) in O.
  unfold d_protocol_id. destruct (ztake (256 * hi + lo + 4) r2) as [|p q]; [eexists; intros; reflexivity|].
  apply steady_next. intros [v' q'] [= <- <-]. destruct (p =? 1) eqn:Ep.
  2: { destruct (p =? 15); [apply S|apply steady_ret]. }
  unfold d_emi_id. destruct q as [|e q]; [eexists; intros; reflexivity|].
  apply steady_next. intros [v' q'] [= <- <-]. destruct (e =? 3) eqn:Ee; [|apply steady_ret].
  destruct q as [|m1 [|m2 q]]; [eexists; intros; reflexivity|eexists; intros; reflexivity|].
  rewrite octets_cons in O. destruct O as (_ & O). rewrite octets_cons in O. destruct O as (_ & O).
  rewrite octets_short by assumption. rewrite !octets_cons in O. destruct O as (O1 & O2 & _).
  apply steady_next. intros [v' q'] X. assert (Y : v' = 256 * m1 + m2) by congruence. subst v'.
  rewrite eqb_sum by assumption. cbn [andb] in H. destruct ((m1 =? 0) && (m2 =? 0)); [discriminate H|apply steady_ret].
Qed.
Lemma sim_ext {A} R (k k' : M state A) : (forall s, k s = k' s) -> sim R k' -> sim R k.
Proof. intros E H s s' N. rewrite !E. apply H. exact N. Qed.

Lemma nr_decode (P Q : Z -> Prop) c b : octets b -> (forall t, telegram_inside b t -> P (t_dst t)) -> sim (near P Q) (decode_msg c b).
Proof.
  intros O H. unfold decode_msg. apply sim_get; [nr_get|]. intros s0. destruct (st_medium s0); [apply sim_raise| |].
  - destruct (usb_cemi b) as [cemi|] eqn:U.
    + destruct (usb_some b cemi s0 O U) as [Oc _]. apply (sim_ext _ _ (d_msg_code cemi)).
      { intros s. apply (usb_some b cemi s O U). }
      apply nr_msg_code; [exact Oc|]. intros k t E. apply H. left. eauto.
    + apply steady_sim. apply usb_steady; assumption.
  - destruct b as [|h0 [|v [|s1 [|s2 r]]]]; try (apply steady_sim; eexists; intros; reflexivity).
    pose proof O as Ob. rewrite !octets_cons in O. destruct O as (_ & _ & O1 & O2 & O).
    apply (sim_ext _ _ (if (h0 =? 0x06) && (v =? 0x10) then services c s1 s2 r else mret (RList []))).
    { intros s. apply ip_header; assumption. }
    destruct ((h0 =? 0x06) && (v =? 0x10)) eqn:Eh; [|apply sim_ret]. unfold services.
    destruct ((s1 =? 2) && (s2 =? 2)); [unfold d_search_res; nr_tac|].
    destruct ((s1 =? 2) && (s2 =? 10)); [unfold d_disconnect_res; nr_tac|].
    destruct ((s1 =? 2) && (s2 =? 6)); [unfold d_connect_res; nr_tac|].
    destruct ((s1 =? 2) && (s2 =? 8)); [unfold d_connectionstate_res; nr_tac|].
    destruct ((s1 =? 4) && (s2 =? 32)) eqn:Es.
    2: { destruct ((s1 =? 4) && (s2 =? 33)); [unfold d_tunneling_ack; nr_tac|apply sim_ret]. }
    unfold d_tunneling_req. destruct r as [|l1 [|l2 r]]; try (apply steady_sim; eexists; intros; reflexivity).
    destruct c; try (apply steady_sim; eexists; intros; reflexivity).
    2: { destruct r as [|sz [|ch [|ct [|sta r]]]]; apply steady_sim; eexists; intros; reflexivity. }
    destruct r as [|sz [|ch [|ct [|sta r]]]]; try (apply steady_sim; eexists; intros; reflexivity).
    assert (M : sim (near P Q) (d_msg_code r)).
    { rewrite !octets_cons in O. apply nr_msg_code; [tauto|]. intros k t E. apply H. right. exists ct, r, k.
      split; [|exact E]. cbn [tunnelled]. apply andb_true_iff in Eh, Es. destruct Eh as [-> ->], Es as [-> ->]. reflexivity. }
    unfold short, ip_conn_header, octect. cbn [rbind].
    apply (sim_ext _ _ (act s <- mget;
      if st_remote s =? ct then act r <- d_msg_code r;
         mret (RList (MTunnelingReq ct 0 :: match r with RList l => l | RNone => [] | RAck l => l end))
      else if st_remote s =? ct + 1 then mret (RList [MTunnelingReq ct 0]) else mret (RList [MTunnelingReq ct 3])));
      [intros; reflexivity|].
    nr_tac. exact M.
Qed.

(** ** Encoding *)

(** The same, with the ASAP of the message set. *)
Definition near_for (P Q : Z -> Prop) (s s' : state) : Prop :=
  near P Q s s' /\ exists a, st_asap s = Some a /\ Q (asap_value a).
Lemma nf_ia P Q s s' : near_for P Q s s' -> st_individual_address s' = st_individual_address s.
Proof. intros [H _]. apply (nr_ia _ _ _ _ H). Qed.
Lemma nf_dpt P Q s s' : near_for P Q s s' -> st_get_dpt s' = st_get_dpt s.
Proof.
  intros [((a & go & a' & go' & _ & _ & E & E' & C) & _ & _ & Ha & _) (b & Eb & Hb)].
  unfold st_get_dpt. rewrite E, E', Ha, Eb. cbn. rewrite (cl_type _ _ _ _ _ _ C b Hb). reflexivity.
Qed.
Ltac nf_get := let s := fresh in let s' := fresh in let H := fresh in
  intros s s' H; rewrite ?(nf_ia _ _ _ _ H), ?(nf_dpt _ _ _ _ H);
  destruct H as ((_ & ? & ? & ? & ? & ? & ? & ? & ?) & _);
  repeat match goal with E : _ s' = _ s |- _ => rewrite E; clear E end; reflexivity.
Ltac nf_set := let s := fresh in let s' := fresh in let H := fresh in
  intros s s' H; unfold near_for, near in *; cbn; intuition congruence.
Ltac nf_tac := repeat match goal with
  | |- sim _ (mret _) => apply sim_ret
  | |- sim _ (mraise _) => apply sim_raise
  | |- sim _ (mlift _) => apply sim_lift
  | |- sim _ (mmodify _) => apply sim_modify; nf_set
  | |- sim _ (mbind mget _) => apply sim_get; [nf_get|intros]
  | |- sim _ (mbind _ _) => apply sim_bind; [|intros]
  | |- sim _ (match ?x with _ => _ end) => destruct x
  | |- sim _ (let '(_, _) := ?x in _) => destruct x
  end.
Lemma nf_nl P Q m : sim (near_for P Q) (nl_encode m).
Proof.
  intros s s' H. pose proof H as [((a & go & a' & go' & E & E' & _ & _ & C) & _ & _ & Ha & _) (b & Eb & Hb)].
  pose proof (cl_sends _ _ _ _ _ _ C b Hb) as X.
  assert (Y : forall s a, st_assoc s = Some a -> st_asap s = Some b -> st_get_addresses s = sends_to a b).
  { intros u x E1 E2. unfold st_get_addresses, st_get_tsaps, sends_to. rewrite E1, E2. cbn [need rbind].
    destruct (as_get_tsaps x b); reflexivity. }
  unfold nl_encode, mbind, mget, mlift. rewrite (Y s a E Eb), (Y s' a' E') by congruence.
  destruct (sends_to a b) as [l|e], (sends_to a' b) as [l'|e']; try contradiction; [|subst e'; auto].
  destruct l as [|x l], l' as [|x' l']; try discriminate; unfold mret; cbn [fst snd]; [auto|].
  cbn in X. assert (X1 : a_val x = a_val x') by congruence. rewrite X1. auto.
Qed.
Lemma nf_tl P Q m : sim (near_for P Q) (tl_encode m).
Proof.
  intros s s' H. pose proof H as [((a & go & a' & go' & E & E' & _ & _ & C) & _ & _ & Ha & Hp & _) (b & Eb & Hb)].
  pose proof (cl_tsaps _ _ _ _ _ _ C b Hb) as X.
  unfold tl_encode, mbind, mget, mlift, st_get_tsaps. rewrite E, E', Ha, Eb, Hp. cbn [need rbind].
  destruct (as_get_tsaps a b) as [l|e], (as_get_tsaps a' b) as [l'|e']; try contradiction; [|subst e'; auto].
  destruct l as [|x l], l' as [|x' l']; [auto| | |].
  - destruct X as [X _]. discriminate (X eq_refl).
  - destruct X as [_ X]. discriminate (X eq_refl).
  - destruct (st_apci s); unfold mret, mraise; cbn [fst snd]; auto.
Qed.
Lemma set_for {B} (P Q : Z -> Prop) (a : asap) f (k : M state B) : Q (asap_value a) ->
  (forall s, st_asap (f s) = Some a) -> (forall s s', near P Q s s' -> near P Q (f s) (f s')) ->
  sim (near_for P Q) k -> sim (near P Q) (act _ <- mmodify f; k).
Proof.
  intros Hq Ha Hn K s s' N. unfold mbind, mmodify.
  assert (X : near_for P Q (f s) (f s')) by (split; [auto|eauto]). destruct (K _ _ X) as [E [Y _]]. auto.
Qed.
Lemma nr_encode (P Q : Z -> Prop) m : (forall v, sent_for m = Some v -> Q v) -> sim (near P Q) (encode_msg m).
Proof.
  assert (CH : forall a b, sim (near P Q) (e_connection_header a b)).
  { intros. unfold e_connection_header, channel_id. nr_tac. }
  assert (CR : forall m, sim (near P Q) (e_cemi_req m)).
  { intros. unfold e_cemi_req, e_tunneling_req. nr_tac. apply CH. }
  assert (LL : forall m, sim (near P Q) (ll_encode m)) by (intros; unfold ll_encode; nr_tac).
  assert (LR : forall m, sim (near P Q) (e_ldata_req m)).
  { intros. unfold e_ldata_req. nr_tac; [apply LL|apply CR]. }
  assert (IR : forall m, sim (near P Q) (e_tdata_individual_req m)).
  { intros. unfold e_tdata_individual_req, e_ndata_individual_req. nr_tac; apply LR. }
  assert (CH' : forall a b, sim (near_for P Q) (e_connection_header a b)).
  { intros. unfold e_connection_header, channel_id. nf_tac. }
  assert (CR' : forall m, sim (near_for P Q) (e_cemi_req m)).
  { intros. unfold e_cemi_req, e_tunneling_req. nf_tac. apply CH'. }
  assert (LL' : forall m, sim (near_for P Q) (ll_encode m)) by (intros; unfold ll_encode; nf_tac).
  assert (GR : forall m, sim (near_for P Q) (e_tdata_group_req m)).
  { intros. unfold e_tdata_group_req, e_ndata_group_req, e_ldata_req. nf_tac; [apply nf_tl|apply nf_nl|apply LL'|apply CR']. }
  assert (GI : forall m, sim (near_for P Q) (e_tdata_group_ind m)).
  { intros. unfold e_tdata_group_ind, e_ndata_group_ind, e_ldata_ind, e_cemi_ind. nf_tac; [apply nf_tl|apply nf_nl|apply LL']. }
  assert (AL : forall B a d (k : msg -> E B), Q (asap_value a) -> (forall m, sim (near_for P Q) (k m)) ->
     sim (near P Q) (act m <- al_encode a d; k m)).
  { intros B a d k Hq Hk. unfold al_encode.
    apply (sim_ext _ _ (act _ <- mmodify (st_set_asap a);
      act m <- (act _ <- mmodify (st_set_apci 0x80); act _ <- mmodify (st_set_address_type AT_group); act s <- mget;
        act c <- mlift (st_get_dpt s);
        if dpt_small c then mret [Octect (ld_full_apci (ld_set_data (ld_set_apci ld_new 0x80) (d_value d)))]
        else let l := ld_set_data (ld_set_apci ld_new 0x80) 0 in
          if dpt_size c =? 1 then mret [Octect (ld_full_apci l); Octect (d_value d)]
          else if dpt_size c =? 2 then mret [Octect (ld_full_apci l); short_MSB (Short (d_value d)); short_LSB (Short (d_value d))]
          else if dpt_size c =? 4 then mret [Octect (ld_full_apci l); long_B4 (Long (d_value d)); long_B3 (Long (d_value d));
                 long_B2 (Long (d_value d)); long_B1 (Long (d_value d))]
          else mret []); k m)); [intros; reflexivity|].
    apply (set_for P Q a); [exact Hq|reflexivity|nr_set|]. cbv zeta. nf_tac. apply Hk. }
  intros H. destruct m; cbn [encode_msg]; try apply sim_raise.
  - unfold e_connect_req. nr_tac.
  - unfold e_connectionstate_req, e_channel_req, channel_id. nr_tac.
  - unfold e_disconnect_req, e_channel_req, channel_id. nr_tac.
  - unfold e_search_req. nr_tac.
  - unfold e_tunneling_ack, e_connection_header, channel_id. nr_tac.
  - unfold e_group_value_read. apply sim_bind; [nr_tac|intros].
    apply (set_for P Q a); [apply H; reflexivity|reflexivity|nr_set|]. nf_tac. apply GR.
  - unfold e_group_value_write_req. apply AL; [apply H; reflexivity|apply GR].
  - unfold e_group_value_write_ind. apply AL; [apply H; reflexivity|apply GI].
  - unfold e_property_value_read. nr_tac. apply IR.
  - unfold e_property_value_write. nr_tac. apply IR.
Qed.

Lemma near_sees (P Q : Z -> Prop) us : forall s s', near P Q s s' ->
  Forall (fun u => match u with
                   | Decoding _ b => octets b /\ forall t, telegram_inside b t -> P (t_dst t)
                   | Encoding m => forall v, sent_for m = Some v -> Q v
                   end) us ->
  sees s us = sees s' us.
Proof.
  induction us as [|u us IH]; intros s s' T F; [reflexivity|]. cbn [sees]. inversion F as [|? ? Fu Fr]; subst.
  assert (X : fst (perform s u) = fst (perform s' u) /\ near P Q (snd (perform s u)) (snd (perform s' u))).
  { destruct u as [m|c m]; cbn [perform].
    - destruct (nr_encode P Q m Fu s s' T) as [X Y]. destruct (encode_msg m s), (encode_msg m s'). cbn [fst snd] in *. split; congruence || assumption.
    - destruct (nr_decode P Q c m (proj1 Fu) (proj2 Fu) s s' T) as [X Y].
      destruct (decode_msg c m s), (decode_msg c m s'). cbn [fst snd] in *. split; congruence || assumption. }
  destruct X as [-> Y]. f_equal. apply IH; assumption.
Qed.
