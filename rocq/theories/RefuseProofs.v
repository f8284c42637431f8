(** Lemmas for C100. *)
From Coq Require Import String Ascii ZArith NArith List Bool Lia ZifyBool Permutation.
From Verif Require Import Py Base Msg Address Dpt Tables LData Inet State Encode.
From Verif Require Import SpecMsg SpecTables SpecWire SpecInet SpecRefuse MsgProofs TablesProofs AssocProofs InetProofs EncodeProofs.
Import ListNotations.
Open Scope Z_scope.

(** ** The dictionary *)

Lemma remove_without x l l' : remove_first x l = Some l' -> vals l' = without_first (a_val x) (vals l).
Proof.
  revert l'. induction l as [|y r IH]; intros l'; cbn [remove_first vals map without_first]; [discriminate|].
  unfold addr_eqb.
  destruct (a_val y =? a_val x); [intros [= <-]; reflexivity|].
  destruct (remove_first x r) as [r'|]; [|discriminate]. intros [= <-]. cbn. f_equal. apply IH. reflexivity.
Qed.
Lemma loop_left a l : forall t d t' d', disassoc_loop a l t d = (Ok tt, (t', d')) ->
  vals (entry d' (asap_value a)) = fold_left (fun r g => without_first g r) (vals l) (vals (entry d (asap_value a))).
Proof.
  induction l as [|x r IH]; intros t d t' d'; cbn [disassoc_loop]; [intros [= <- <-]; reflexivity|].
  destruct (if negb (addr_eqb x (at_ia t)) then at_remove x t else (Ok tt, t)) as [[u|e] t1]; [|discriminate].
  destruct (dget asap_eqb a d) as [l0|] eqn:E; [|discriminate].
  destruct (remove_first x l0) as [l1|] eqn:E1; [|discriminate].
  intros H. apply IH in H. rewrite H, entry_dset, Z.eqb_refl. cbn [vals map fold_left]. f_equal.
  rewrite (dget_entry _ _ _ E). apply remove_without. exact E1.
Qed.
Lemma do_left s c s' v : as_do s c = (Ok tt, s') ->
  vals (entry (as_addresses s') v) = left_by v (vals (entry (as_addresses s) v)) c /\
  (dget asap_eqb (mkasap v None) (as_addresses s') <> None <->
   dget asap_eqb (mkasap v None) (as_addresses s) <> None \/ introduced1 v c = true).
Proof.
  destruct c as [a l|a l]; cbn [as_do left_by introduced1]; intros H.
  - apply associate_ok in H. destruct H as (E & _ & _). rewrite E, entry_append, dget_append. cbn [asap_value].
    destruct (asap_value a =? v) eqn:V.
    + split; [unfold vals; apply map_app|]. intuition congruence.
    + rewrite app_nil_r. split; [reflexivity|]. intuition congruence.
  - apply disassociate_ok in H. destruct H as [H _]. pose proof (loop_left _ _ _ _ _ _ H) as L.
    apply disassoc_loop_ok in H. destruct H as (_ & K & O & _). split.
    + destruct (asap_value a =? v) eqn:V; [apply Z.eqb_eq in V; subst v; exact L|]. rewrite O by lia. reflexivity.
    + assert (E : forall d, dget asap_eqb (mkasap v None) d <> None <-> In v (map asap_value (map (@fst asap (list address)) d))).
      { intros d. clear. induction d as [|[k w] d IH]; cbn; [intuition congruence|].
        unfold asap_eqb. cbn [asap_value]. destruct (asap_value k =? v) eqn:V; [apply Z.eqb_eq in V; intuition congruence|].
        destruct (v =? asap_value k) eqn:V'; [lia|]. fold asap_eqb. rewrite IH. apply Z.eqb_neq in V. intuition congruence. }
      rewrite !E, K. intuition congruence.
Qed.
Lemma run_left h : forall s os s', as_run s h = (os, s') -> all_ok os -> forall v,
  vals (entry (as_addresses s') v) = fold_left (left_by v) h (vals (entry (as_addresses s) v)) /\
  (dget asap_eqb (mkasap v None) (as_addresses s') <> None <->
   dget asap_eqb (mkasap v None) (as_addresses s) <> None \/ existsb (introduced1 v) h = true).
Proof.
  induction h as [|c r IH]; intros s os s' H A v.
  - injection H as _ <-. cbn. intuition congruence.
  - apply as_run_cons in H. destruct H as (o & s1 & os1 & E1 & E2 & ->). inversion A as [|? ? Hu Ho]. subst o.
    destruct (do_left _ _ _ v E1) as [L1 D1]. destruct (IH _ _ _ E2 Ho v) as [L2 D2].
    cbn [fold_left existsb]. rewrite L2, L1. split; [reflexivity|]. rewrite D2, D1, orb_true_iff. tauto.
Qed.

(** ** The address table *)

Lemma insert_stock l : forall t t', assoc_insert l t = (Ok tt, t') ->
  at_ia t' = at_ia t /\
  forall g, g <> a_val (at_ia t) ->
    occ g (vals (at_addrs t')) =
    if existsb (Z.eqb g) (vals l) then Z.max 1 (occ g (vals (at_addrs t))) else occ g (vals (at_addrs t)).
Proof.
  induction l as [|a r IH]; intros t t'; cbn [assoc_insert vals map existsb]; [intros [= <-]; auto|].
  destruct (negb (mem_addr a (at_addrs t)) && negb (addr_is a (at_ia t))) eqn:E.
  - destruct (at_add a t) as [[[]|e] t1] eqn:Ea; [|discriminate]. intros H. apply IH in H. destruct H as [H1 H2].
    apply at_add_ok in Ea. destruct Ea as (_ & Ei & Ea). apply andb_true_iff in E. destruct E as [E _].
    apply negb_true_iff in E. rewrite E in Ea. cbn in Ea. destruct Ea as [_ P]. split; [congruence|].
    intros g G. rewrite (H2 g) by congruence. apply (Permutation_map a_val) in P.
    apply (occ_perm g) in P. cbn [map] in P. rewrite occ_cons in P. fold (vals (at_addrs t1)) in P. fold (vals (at_addrs t)) in P.
    rewrite P. pose proof (occ_nonneg g (vals (at_addrs t))). fold (vals r).
    destruct (g =? a_val a) eqn:Q; cbn [orb].
    + assert (Z0 : occ g (vals (at_addrs t)) = 0).
      { apply Z.eqb_eq in Q. subst g. destruct (Z.eq_dec (occ (a_val a) (vals (at_addrs t))) 0) as [e|e]; [exact e|].
        exfalso. assert (In (a_val a) (vals (at_addrs t))) as I by (apply occ_In; lia).
        apply mem_addr_In in I. congruence. }
      rewrite Z0. destruct (existsb _ _); lia.
    + destruct (existsb _ _); lia.
  - intros H. apply IH in H. destruct H as [H1 H2]. split; [exact H1|]. intros g G. rewrite (H2 g) by exact G.
    fold (vals r). destruct (g =? a_val a) eqn:Q; cbn [orb]; [|reflexivity].
    assert (0 < occ g (vals (at_addrs t))).
    { apply Z.eqb_eq in Q. subst g. apply occ_In. apply andb_false_iff in E. destruct E as [E|E]; apply negb_false_iff in E.
      - apply mem_addr_In. exact E.
      - unfold addr_is in E. apply andb_true_iff in E. destruct E as [_ E]. apply Z.eqb_eq in E. congruence. }
    destruct (existsb _ _); lia.
Qed.
Lemma loop_stock a l : forall t d t' d', disassoc_loop a l t d = (Ok tt, (t', d')) ->
  at_ia t' = at_ia t /\
  forall g, g <> a_val (at_ia t) -> occ g (vals (at_addrs t')) = occ g (vals (at_addrs t)) - occ g (vals l).
Proof.
  induction l as [|x r IH]; intros t d t' d'; cbn [disassoc_loop].
  - intros [= <- <-]. split; [reflexivity|]. intros g _. cbn. lia.
  - destruct (if negb (addr_eqb x (at_ia t)) then at_remove x t else (Ok tt, t)) as [[u|e] t1] eqn:R; [|discriminate].
    destruct (dget asap_eqb a d) as [l0|]; [|discriminate].
    destruct (remove_first x l0) as [l1|]; [|discriminate].
    intros H. apply IH in H. destruct H as [H1 H2].
    assert (K : at_ia t1 = at_ia t /\ forall g, g <> a_val (at_ia t) ->
      occ g (vals (at_addrs t1)) = occ g (vals (at_addrs t)) - (if g =? a_val x then 1 else 0)).
    { destruct (negb (addr_eqb x (at_ia t))) eqn:N.
      - unfold at_remove in R. destruct (remove_first x (at_addrs t)) as [y|] eqn:Y; [|discriminate].
        injection R as _ <-. split; [reflexivity|]. intros g _. cbn [at_addrs].
        pose proof (Permutation_map a_val (sort_perm y)) as Q. apply (occ_perm g) in Q. fold (vals (sort_addrs y)) in Q.
        rewrite Q. apply remove_first_Some in Y. destruct Y as (b & Eb & P). apply (Permutation_map a_val) in P.
        apply (occ_perm g) in P. cbn [map] in P. rewrite occ_cons, Eb in P. unfold vals. lia.
      - injection R as _ <-. split; [reflexivity|]. intros g G. apply negb_false_iff in N. unfold addr_eqb in N.
        apply Z.eqb_eq in N. destruct (g =? a_val x) eqn:Q; lia. }
    destruct K as [K1 K2]. split; [congruence|]. intros g G. rewrite (H2 g) by congruence. rewrite (K2 g G).
    cbn [vals map]. rewrite occ_cons. fold (vals r). lia.
Qed.
Lemma run_stock h : forall s os s', as_run s h = (os, s') -> all_ok os ->
  at_ia (as_table s') = at_ia (as_table s) /\
  forall g, g <> a_val (at_ia (as_table s)) ->
    occ g (vals (at_addrs (as_table s'))) = fold_left (stock1 g) h (occ g (vals (at_addrs (as_table s)))).
Proof.
  induction h as [|c r IH]; intros s os s' H A.
  - injection H as _ <-. auto.
  - apply as_run_cons in H. destruct H as (o & s1 & os1 & E1 & E2 & ->). inversion A as [|? ? Hu Ho]. subst o.
    destruct (IH _ _ _ E2 Ho) as [I2 S2].
    assert (K : at_ia (as_table s1) = at_ia (as_table s) /\ forall g, g <> a_val (at_ia (as_table s)) ->
      occ g (vals (at_addrs (as_table s1))) = stock1 g (occ g (vals (at_addrs (as_table s)))) c).
    { destruct c as [a0 l0|a0 l0]; cbn [as_do stock1] in *.
      - apply associate_ok in E1. destruct E1 as (_ & _ & E1). exact (insert_stock _ _ _ E1).
      - apply disassociate_ok in E1. destruct E1 as [E1 _]. exact (loop_stock _ _ _ _ _ _ E1). }
    destruct K as [I1 S1]. split; [congruence|]. intros g G. cbn [fold_left]. rewrite S2 by congruence.
    rewrite S1 by exact G. reflexivity.
Qed.

(** ** Both, for built tables *)

Lemma built_ia t l h s : built t l h s -> at_ia (as_table s) = at_ia t.
Proof. intros B. apply built_run in B. destruct B as (os & R & A). exact (proj1 (run_stock _ _ _ _ R A)). Qed.
Lemma built_gone t l h s g : built t l h s -> (~ known (as_table s) g <-> gone t l h g).
Proof.
  intros B. pose proof (built_ia _ _ _ _ B) as I. apply built_run in B. destruct B as (os & R & A).
  destruct (run_stock _ _ _ _ R A) as [_ S]. cbn [as_table] in S. unfold known, gone. rewrite I.
  destruct (Z.eq_dec g (a_val (at_ia t))) as [e|n]; [subst g; intuition congruence|].
  unfold stock. rewrite <- (S g n). rewrite occ_In. pose proof (occ_nonneg g (vals (at_addrs (as_table s)))).
  intuition lia.
Qed.
Lemma dget_plain a (d : list (asap * list address)) : dget asap_eqb a d = dget asap_eqb (mkasap (asap_value a) None) d.
Proof. apply dget_value. reflexivity. Qed.
Lemma sends_outcome t l h s a : built t l h s ->
  match sends_to s a with
  | Ok L => introduced t l h (asap_value a) = true /\ vals L = remaining t l h (asap_value a) /\
            ~ exists g, In g (remaining t l h (asap_value a)) /\ gone t l h g
  | Err e => (e = KeyError /\ introduced t l h (asap_value a) = false) \/
             (e = TypeError /\ introduced t l h (asap_value a) = true /\
              exists g, In g (remaining t l h (asap_value a)) /\ gone t l h g)
  end.
Proof.
  intros B. pose proof (built_gone t l h s) as G. pose proof (built_run _ _ _ _ B) as (os & R & A).
  destruct (run_left _ _ _ _ R A (asap_value a)) as [L D]. cbn [as_addresses] in L, D.
  change (vals (entry [] (asap_value a))) with (@nil Z) in L. fold (remaining t l h (asap_value a)) in L.
  fold (introduced t l h (asap_value a)) in D. rewrite sends_to_targets, dget_plain.
  destruct (dget asap_eqb (mkasap (asap_value a) None) (as_addresses s)) as [e|] eqn:E.
  - assert (Hi : introduced t l h (asap_value a) = true).
    { destruct (proj1 D) as [X|X]; [discriminate|cbn in X; congruence|exact X]. }
    pose proof (dget_entry _ _ _ E) as Ee. cbn [asap_value] in Ee. rewrite Ee in L.
    assert (Dec : (forall x, In x e -> known (as_table s) (a_val x)) \/ exists x, In x e /\ ~ known (as_table s) (a_val x)).
    { clear. induction e as [|x r [IH|(y & Y & N)]]; [left; intros x []| |right; exists y; split; [right|]; assumption].
      destruct (known_dec (as_table s) (a_val x)) as [K|K]; [|right; exists x; split; [left; reflexivity|exact K]].
      left. intros y [<-|Y]; auto. }
    destruct Dec as [K|(x & X & N)].
    + destruct (targets_known _ _ K) as (T & T1 & T2). rewrite T1. split; [exact Hi|]. split; [congruence|].
      intros (g & Hg & Gg). rewrite <- L in Hg. unfold vals in Hg. apply in_map_iff in Hg. destruct Hg as (x & <- & Hx).
      apply (G _ B) in Gg. apply Gg. apply K. exact Hx.
    + rewrite (targets_unknown _ _ x X N). right. split; [reflexivity|]. split; [exact Hi|].
      exists (a_val x). split; [rewrite <- L; apply in_map; exact X|]. apply (G _ B). exact N.
  - left. split; [reflexivity|]. destruct (introduced t l h (asap_value a)); [|reflexivity].
    exfalso. apply (proj2 D); auto.
Qed.

(** ** Texts *)

Lemma hex_outcome text : match stringtooctects text with
  | Ok d => all_hex text /\ hex_data text d
  | Err e => e = ValueError /\ ~ all_hex text
  end.
Proof.
  assert (Dec : all_hex text \/ Exists (fun c => ~ is_hex c) (list_ascii_of_string text)).
  { unfold all_hex. generalize (list_ascii_of_string text) as cs. induction cs as [|c cs [IH|IH]]; [left; constructor| |right; apply Exists_cons_tl; exact IH].
    assert (D : is_hex c \/ ~ is_hex c).
    { unfold is_hex. destruct (in_dec ascii_dec c digits); [auto|]. destruct (in_dec ascii_dec c small_letters); [auto|]. right. tauto. }
    destruct D; [left; constructor; assumption|right; apply Exists_cons_hd; assumption]. }
  change (stringtooctects text) with (make_from_str text). destruct Dec as [H|H].
  - destruct (Nat.even (String.length text)) eqn:E.
    + destruct (make_hex_even _ H E) as (d & -> & O & U). split; [exact H|]. split; [exact O|].
      exists EmptyString. rewrite <- (msg_str_text d O), U. split; [|cbn; lia].
      clear. generalize (upper text) as s. induction s as [|c s IH]; cbn; congruence.
    + assert (X : exists s c, text = (s ++ String c EmptyString)%string).
      { destruct text as [|c0 s0]; [discriminate|]. clear. revert c0. induction s0 as [|c1 s1 IH]; intros c0.
        - exists EmptyString, c0. reflexivity.
        - destruct (IH c1) as (s & c & ->). exists (String c0 s), c. reflexivity. }
      destruct X as (s & c & ->). unfold all_hex in H. rewrite list_ascii_app in H. apply Forall_app in H.
      destruct H as [H Hc]. inversion Hc as [|? ? Hc' _]. subst.
      assert (E' : Nat.even (String.length s) = true).
      { assert (L : String.length (s ++ String c EmptyString) = S (String.length s)) by (clear; induction s; cbn; congruence).
        rewrite L, Nat.even_succ in E. rewrite <- Nat.negb_odd, E. reflexivity. }
      rewrite (make_hex_odd s c H E' Hc'). destruct (make_hex_even _ H E') as (d & -> & O & U).
      split; [unfold all_hex; rewrite list_ascii_app; apply Forall_app; auto|]. split; [exact O|].
      exists (String (upper_char c) EmptyString). rewrite <- (msg_str_text d O), U. split; [|cbn; lia].
      unfold upper. rewrite list_ascii_app, map_app. clear. generalize (map upper_char (list_ascii_of_string s)) as q.
      induction q as [|x q IH]; cbn; [reflexivity|]. cbn in IH. congruence.
  - rewrite (make_bad text H). split; [reflexivity|]. intros K. apply Exists_exists in H. destruct H as (c & I & N).
    unfold all_hex in K. rewrite Forall_forall in K. exact (N (K c I)).
Qed.
Lemma aton_outcome a : match inet_aton a with
  | Ok ip => ~ In Ascii.zero (list_ascii_of_string a) /\ address_text a ip /\ ipv4 ip
  | Err e => (e = ValueError /\ In Ascii.zero (list_ascii_of_string a)) \/
             (e = OSError /\ ~ In Ascii.zero (list_ascii_of_string a) /\ forall ip, ~ address_text a ip)
  end.
Proof.
  pose proof (aton_errors a) as H. destruct (inet_aton a) as [ip|e] eqn:E; [|exact H].
  assert (N : ~ In Ascii.zero (list_ascii_of_string a)).
  { intros I. unfold inet_aton in E. destruct (existsb _ _) eqn:X; [discriminate|].
    assert (T : existsb (Ascii.eqb Ascii.zero) (list_ascii_of_string a) = true).
    { apply existsb_exists. exists Ascii.zero. split; [exact I|reflexivity]. }
    congruence. }
  split; [exact N|]. split; [apply aton_spec; assumption|exact H].
Qed.

(** ** Complaints *)

Lemma first_of_unique l : forall o o', first_of l o -> first_of l o' -> o = o'.
Proof.
  induction l as [|[P e] r IH]; intros o o' H H'; inversion H; inversion H'; subst; try congruence; try contradiction.
  eapply IH; eassumption.
Qed.

(** ** Every message *)

Ltac no := solve [ discriminate | contradiction | tauto | congruence
  | let H := fresh in intros H; eapply H; eassumption
  | let H := fresh in intros H; decompose [ex and] H; clear H;
    repeat match goal with Q : Some _ = Some ?x |- _ => is_var x; injection Q as <- end;
    first [discriminate | contradiction | congruence | match goal with N : ~ exists _, _, K : In ?g _ |- _ => apply N; exists g; split; [exact K|]; (assumption || (split; assumption)) end] ].
Ltac later := apply first_later; [solve [no]|].
Ltac here := solve [apply first_here; first [reflexivity | assumption | solve [eauto 8]]].
Ltac firsts := repeat first [exact first_none | here | later].

Lemma channel_outcome service a p st : e_channel_req service a p st =
  (match inet_aton a with
   | Ok ip => match st_channel st with
              | Some ch => Ok ([0x06; 0x10] ++ be 2 service ++ [0x00; 0x10; ch mod 256; 0x00] ++ endpoint ip p)
              | None => Err AttributeError
              end
   | Err e => Err e
   end, st).
Proof.
  pose proof (aton_outcome a) as H. unfold e_channel_req, channel_id, mbind, mlift, mret, mget.
  destruct (inet_aton a) as [ip|e]; [|reflexivity]. destruct H as (_ & _ & H).
  destruct (st_channel st); [|reflexivity]. cbn [need]. rewrite hpai_endpoint, be2 by assumption.
  unfold e_ip_header. rewrite Octect_mod. reflexivity.
Qed.
Lemma no_table_group m st : st_assoc st = None -> fst (e_tdata_group_req m st) = Err AttributeError /\ fst (e_tdata_group_ind m st) = Err AttributeError.
Proof.
  intros H. rewrite tdata_group_req_eq, tdata_group_ind_eq.
  assert (T : tl_encode m st = (Err AttributeError, st)).
  { unfold tl_encode, mbind, mget, mlift, st_get_tsaps. rewrite H. reflexivity. }
  split; unfold mbind at 1; rewrite T; reflexivity.
Qed.
Lemma no_table_individual m st : st_assoc st = None -> st_address_type st = Some AT_individual -> st_apci st <> None ->
  fst (e_tdata_individual_req m st) = Err AttributeError.
Proof.
  intros H1 H2 H3. unfold e_tdata_individual_req, mbind, mget. rewrite H2. cbn [AT_individual Z.eqb].
  change (AT_individual =? AT_individual) with true. cbv iota. destruct (st_apci st) as [v|]; [|congruence].
  unfold e_ndata_individual_req, mbind, mget, mlift, st_individual_address. rewrite H1. reflexivity.
Qed.
Lemma wire_outcome st b : match wire st b with
  | Ok _ => st_medium st = Knxnet_ip -> st_channel st <> None
  | Err e => e = AttributeError /\ st_medium st = Knxnet_ip /\ st_channel st = None
  end.
Proof. unfold wire. destruct (st_medium st); try discriminate. destruct (st_channel st); [congruence|auto]. Qed.

Definition outcome_ok t l h st m (r : res (list Z)) : Prop :=
  match r with
  | Ok b => first_of (complaints t l h st m) None /\ meant t l h st m b
  | Err e => first_of (complaints t l h st m) (Some e)
  end.
Ltac open := unfold complaints; cbn [app endpoint_texts flat_map needs_table needs_type needs_addresses data_text].

Lemma outcome_control t l h st m : needs_table m = false -> outcome_ok t l h st m (fst (encode_msg m st)).
Proof.
  destruct m; intros X; try discriminate X; try (cbn [encode_msg fst mraise]; unfold outcome_ok; open; here);
    cbn [encode_msg]; unfold outcome_ok.
  - unfold e_connect_req, mbind, mlift, mret. pose proof (aton_outcome caddr) as H1. pose proof (aton_outcome daddr) as H2. open.
    destruct (inet_aton caddr) as [ip1|e1]; [|cbn [fst]; destruct H1 as [(-> & H1)|(-> & H1 & H1')]; firsts].
    destruct H1 as (N1 & T1 & V1).
    destruct (inet_aton daddr) as [ip2|e2]; [|cbn [fst]; destruct H2 as [(-> & H2)|(-> & H2 & H2')]; later; later; later; firsts].
    destruct H2 as (N2 & T2 & V2). cbn [fst]. split; [firsts|]. exists ip1, ip2. split; [exact T1|]. split; [exact T2|].
    rewrite !hpai_endpoint by assumption. reflexivity.
  - unfold e_connectionstate_req. rewrite channel_outcome. cbn [fst]. pose proof (aton_outcome caddr) as H1. open.
    destruct (inet_aton caddr) as [ip1|e1]; [|destruct H1 as [(-> & H1)|(-> & H1 & H1')]; firsts].
    destruct H1 as (N1 & T1 & V1). destruct (st_channel st) as [ch|] eqn:C; [|do 9 later; here].
    split; [firsts|]. exists ip1, ch. auto.
  - unfold e_disconnect_req. rewrite channel_outcome. cbn [fst]. pose proof (aton_outcome caddr) as H1. open.
    destruct (inet_aton caddr) as [ip1|e1]; [|destruct H1 as [(-> & H1)|(-> & H1 & H1')]; firsts].
    destruct H1 as (N1 & T1 & V1). destruct (st_channel st) as [ch|] eqn:C; [|do 9 later; here].
    split; [firsts|]. exists ip1, ch. auto.
  - unfold e_search_req, mbind, mlift, mret. pose proof (aton_outcome addr) as H1. open.
    destruct (inet_aton addr) as [ip1|e1]; [|cbn [fst]; destruct H1 as [(-> & H1)|(-> & H1 & H1')]; firsts].
    destruct H1 as (N1 & T1 & V1). cbn [fst]. split; [firsts|]. exists ip1. split; [exact T1|].
    rewrite !hpai_endpoint by assumption. reflexivity.
  - change (e_tunneling_ack seq status) with (encode_msg (MTunnelingAck seq status)). rewrite ack_frame. open.
    destruct (st_channel st) as [ch|] eqn:C; cbn [fst]; [|do 7 later; here]. split; [firsts|]. exists ch. auto.
Qed.

Lemma read_cemi st s a L : st_assoc st = Some s -> sends_to s a = Ok L ->
  fst (encode_msg (MGroupValueReadReq a) st) = wire st (group_cemi data_req (vals L) read_tpdu).
Proof. intros S H. rewrite (read_frame st s a S), H. destruct L; reflexivity. Qed.
Lemma read_err st s a e : st_assoc st = Some s -> sends_to s a = Err e ->
  fst (encode_msg (MGroupValueReadReq a) st) = Err e.
Proof. intros S H. rewrite (read_frame st s a S), H. reflexivity. Qed.
Lemma write_cemi st s go a d c L : st_assoc st = Some s -> st_gobj st = Some go -> type_of go (asap_value a) = Some c ->
  sends_to s a = Ok L ->
  fst (encode_msg (MGroupValueWriteReq a d) st) = wire st (group_cemi data_req (vals L) (write_tpdu c (d_value d))) /\
  fst (encode_msg (MGroupValueWriteInd a d) st) = Ok (usb_report (group_cemi data_ind (vals L) (write_tpdu c (d_value d)))).
Proof.
  intros S G T H. rewrite (write_frame st s go a d c S G T), (write_ind_frame st s go a d c S G T), H.
  destruct L; split; reflexivity.
Qed.
Lemma write_err st s go a d c e : st_assoc st = Some s -> st_gobj st = Some go -> type_of go (asap_value a) = Some c ->
  sends_to s a = Err e ->
  fst (encode_msg (MGroupValueWriteReq a d) st) = Err e /\ fst (encode_msg (MGroupValueWriteInd a d) st) = Err e.
Proof.
  intros S G T H. rewrite (write_frame st s go a d c S G T), (write_ind_frame st s go a d c S G T), H. split; reflexivity.
Qed.

Lemma outcome_read t l h st a : (forall s, st_assoc st = Some s -> built t l h s) ->
  outcome_ok t l h st (MGroupValueReadReq a) (fst (encode_msg (MGroupValueReadReq a) st)).
Proof.
  intros B. unfold outcome_ok. open. destruct (st_assoc st) as [s|] eqn:S.
  - specialize (B s eq_refl). pose proof (sends_outcome t l h s a B) as H. destruct (sends_to s a) as [L|e] eqn:Q.
    + destruct H as (H1 & H2 & H3). rewrite (read_cemi st s a L S Q), H2.
      pose proof (wire_outcome st (group_cemi data_req (remaining t l h (asap_value a)) read_tpdu)) as W.
      cbn [meant]. destruct (wire st _) as [b|e].
      * split; [|reflexivity]. do 7 later. apply first_later; [|exact first_none].
        intros [N C]. cbn in N. destruct (st_medium st); try discriminate N. apply W; auto.
      * destruct W as (-> & M & C). do 7 later. apply first_here. rewrite M. auto.
    + rewrite (read_err st s a e S Q). destruct H as [(-> & H)|(-> & H1 & g & H2 & H3)]; [do 5 later; here|].
      do 6 later. apply first_here. cbn. eauto.
  - cbn [encode_msg]. unfold e_group_value_read, mbind at 1 2 3, mmodify.
    assert (S' : st_assoc (st_set_address_type AT_group (st_set_asap a (st_set_apci 0 st))) = None) by exact S.
    rewrite (proj1 (no_table_group _ _ S')). do 4 later; here.
Qed.
Lemma al_encode_no_types a d st : st_gobj st = None -> al_encode a d st = (Err AttributeError, group_prep a 0x80 st).
Proof.
  intros H. unfold al_encode, mbind, mmodify, mget, mlift, st_get_dpt. cbn [st_gobj st_set_address_type st_set_apci st_set_asap].
  rewrite H. reflexivity.
Qed.
Lemma outcome_writes t l h st a d : (forall s, st_assoc st = Some s -> built t l h s) ->
  outcome_ok t l h st (MGroupValueWriteReq a d) (fst (encode_msg (MGroupValueWriteReq a d) st)) /\
  outcome_ok t l h st (MGroupValueWriteInd a d) (fst (encode_msg (MGroupValueWriteInd a d) st)).
Proof.
  intros B. unfold outcome_ok. open. destruct (st_gobj st) as [go|] eqn:G.
  2: { cbn [encode_msg]. unfold e_group_value_write_req, e_group_value_write_ind, mbind at 1 2.
       rewrite al_encode_no_types by exact G. cbn [fst]. split; do 2 later; here. }
  destruct (type_of go (asap_value a)) as [c|] eqn:T.
  2: { rewrite (proj1 (write_no_type st go a d G T)), (proj2 (write_no_type st go a d G T)). cbn [fst].
       split; do 3 later; apply first_here; eauto. }
  destruct (st_assoc st) as [s|] eqn:S.
  - specialize (B s eq_refl). pose proof (sends_outcome t l h s a B) as H. destruct (sends_to s a) as [L|e] eqn:Q.
    + destruct H as (H1 & H2 & H3). destruct (write_cemi st s go a d c L S G T Q) as [-> ->]. rewrite H2. split.
      * pose proof (wire_outcome st (group_cemi data_req (remaining t l h (asap_value a)) (write_tpdu c (d_value d)))) as W.
        destruct (wire st _) as [b|e] eqn:Wb.
        -- split; [|exists go, c; auto]. do 7 later. apply first_later; [|exact first_none].
           intros [N C]. cbn in N. destruct (st_medium st); try discriminate N. apply W; auto.
        -- destruct W as (-> & M & C). do 7 later. apply first_here. rewrite M. auto.
      * split; [do 7 later|exists go, c; auto]. apply first_later; [|exact first_none]. intros [N C]. discriminate N.
    + destruct (write_err st s go a d c e S G T Q) as [-> ->].
      destruct H as [(-> & H)|(-> & H1 & g & H2 & H3)]; (split; [do 5 later|do 5 later]); try here;
        later; apply first_here; cbn; eauto.
  - cbn [encode_msg]. unfold e_group_value_write_req, e_group_value_write_ind, mbind at 1 2. rewrite (al_encode_spec a d st c go G T).
    assert (S' : st_assoc (group_prep a 0x80 st) = None) by exact S.
    rewrite (proj1 (no_table_group _ _ S')), (proj2 (no_table_group _ _ S')). split; do 4 later; here.
Qed.
Lemma outcome_properties t l h st a oi pid ne si text : (forall s, st_assoc st = Some s -> built t l h s) ->
  outcome_ok t l h st (MPropertyValueReadReq a oi pid ne si) (fst (encode_msg (MPropertyValueReadReq a oi pid ne si) st)) /\
  outcome_ok t l h st (MPropertyValueWriteReq a oi pid ne si text) (fst (encode_msg (MPropertyValueWriteReq a oi pid ne si text) st)).
Proof.
  intros B. unfold outcome_ok. open. split.
  - destruct (st_assoc st) as [s|] eqn:S.
    + rewrite (property_read_frame st s a oi pid ne si S). cbn [fst]. unfold as_individual_address.
      rewrite (built_ia _ _ _ _ (B s eq_refl)).
      pose proof (wire_outcome st (individual_frame data_req (a_val (at_ia t)) (property_read_tpdu oi pid ne si))) as W.
      cbn [meant]. destruct (wire st _) as [b|e].
      * split; [|reflexivity]. do 7 later. apply first_later; [|exact first_none].
        intros [N C]. cbn in N. destruct (st_medium st); try discriminate N. apply W; auto.
      * destruct W as (-> & M & C). do 7 later. apply first_here. rewrite M. auto.
    + cbn [encode_msg]. unfold e_property_value_read, mbind at 1 2 3, mmodify.
      rewrite no_table_individual by (exact S || reflexivity || discriminate). do 4 later; here.
  - pose proof (hex_outcome text) as X. destruct (stringtooctects text) as [d|e] eqn:D.
    + destruct X as [X1 X2].
      assert (nX : ~ exists q, Some text = Some q /\ ~ all_hex q) by (intros (q & [= <-] & N); contradiction).
      destruct (st_assoc st) as [s|] eqn:S.
      * rewrite (property_write_frame st s a oi pid ne si text d S D). cbn [fst]. unfold as_individual_address.
        rewrite (built_ia _ _ _ _ (B s eq_refl)).
        pose proof (wire_outcome st (individual_frame data_req (a_val (at_ia t)) (property_write_tpdu oi pid ne si d))) as W.
        cbn [meant]. destruct (wire st _) as [b|e] eqn:Wb.
        -- split; [|exists d; auto]. later. apply first_later; [exact nX|]. do 5 later. apply first_later; [|exact first_none].
           intros [N C]. cbn in N. destruct (st_medium st); try discriminate N. apply W; auto.
        -- destruct W as (-> & M & C). later. apply first_later; [exact nX|]. do 5 later. apply first_here. rewrite M. auto.
      * cbn [encode_msg]. unfold e_property_value_write, mbind at 1 2 3, mmodify. cbv zeta. unfold mbind at 1, mlift. rewrite D.
        rewrite no_table_individual by (exact S || reflexivity || discriminate). later. apply first_later; [exact nX|]. do 2 later; here.
    + destruct X as [-> X]. rewrite (property_write_bad st a oi pid ne si text ValueError D). cbn [fst]. later.
      apply first_here. eauto.
Qed.

Lemma outcome t l h st m : (forall s, st_assoc st = Some s -> built t l h s) -> outcome_ok t l h st m (fst (encode_msg m st)).
Proof.
  intros B. destruct (needs_table m) eqn:N; [|apply outcome_control; exact N]. destruct m; try discriminate N.
  - apply outcome_read; exact B.
  - apply outcome_writes; exact B.
  - apply outcome_writes; exact B.
  - apply (outcome_properties t l h st a oi pid ne si EmptyString); exact B.
  - apply outcome_properties; exact B.
Qed.
