(** Proofs for C103. *)
From Coq Require Import String ZArith List Bool Lia.
From Verif Require Import Base Py Address Dpt Tables State Encode Decode SpecTables SpecMsg SpecWire SpecDecode SpecGist DecodeProofs.
Import ListNotations.
Open Scope Z_scope.

(** A group telegram and a property telegram with a given gist. *)
Definition says_group (k : dir) (svc : service) (v sta : Z) (a : asap) (c : dpt_class) : message :=
  let d := mkdpt c (v mod 256 ^ value_octets c) in
  match k, svc with
  | Ind, Read => MGroupValueReadInd a d
  | Ind, Response => MGroupValueResponseInd a d
  | Ind, Write => MGroupValueWriteInd a d
  | Con, Read => MGroupValueReadCon a d sta
  | Con, Response => MGroupValueResponseCon a d sta
  | Con, Write => MGroupValueWriteCon a d sta
  end.
Definition takes_from (s : assoc_table) (k : dir) (who : Z) : bool :=
  match k with
  | Ind => who =? a_val (at_ia (as_table s))
  | Con => (who =? a_val (at_ia (as_table s))) && negb (listed s who)
  end.
Definition told (s : assoc_table) (go : gobj_table) (g : gist) : res dres :=
  match g with
  | Nothing => Ok (RList [])
  | NoList => Ok RNone
  | GroupSays k d svc v sta =>
      if listed s d then
        do l <- reached s go d;
        if match l with [] => false | p :: _ => undisplayable (snd p) (v mod 256 ^ value_octets (snd p)) end
        then Err ValueError
        else Ok (RList (map (fun p => says_group k svc v sta (fst p) (snd p)) l))
      else Ok (RList [])
  | PropertySays k who said =>
      if takes_from s k who then match said with Some m => Ok (RList [m]) | None => Err IndexError end
      else Ok (RList [])
  end.

Lemma raw_32 c t : raw c t = (big_endian (payload t) mod 2 ^ 32) mod 256 ^ value_octets c.
Proof.
  unfold raw. set (n := big_endian (payload t)). clearbody n.
  assert (X : exists q, 2 ^ 32 = 256 ^ value_octets c * q /\ 0 < 256 ^ value_octets c /\ 0 < q).
  { destruct c; cbn [value_octets wire_octets]; vm_compute (2 ^ 32).
    all: try (exists 16777216; vm_compute; tauto). all: try (exists 65536; vm_compute; tauto).
    all: try (exists 256; vm_compute; tauto). all: try (exists 1; vm_compute; tauto). }
  destruct X as (q & -> & P & Q). rewrite Z.rem_mul_r by lia.
  rewrite Z.mul_comm, Z.mod_add, Z.mod_mod by lia. reflexivity.
Qed.
Lemma says_group_of k svc t a c :
  group_message k svc t a (mkdpt c (raw c t)) =
  says_group k svc (big_endian (payload t) mod 2 ^ 32) (match k with Con => status t | Ind => 0 end) a c.
Proof. rewrite raw_32. destruct k, svc; reflexivity. Qed.

Lemma outcome_told s go k t : telegram_outcome s go k t = told s go (gist_of k t).
Proof.
  unfold telegram_outcome, gist_of. destruct (group_addressed t).
  - destruct (t_dst t =? 0); [reflexivity|]. destruct (plain t); [|reflexivity]. cbn [negb].
    unfold group_outcome. destruct (group_service t) as [svc|]; cbn [told].
    + destruct (listed s (t_dst t)); [|reflexivity]. destruct (reached s go (t_dst t)) as [l|e]; [|reflexivity].
      cbn [rbind]. unfold first_undisplayable, group_messages.
      assert (M : map (fun p => group_message k svc t (fst p) (mkdpt (snd p) (raw (snd p) t))) l =
        map (fun p => says_group k svc (big_endian (payload t) mod 2 ^ 32) (match k with Con => status t | Ind => 0 end) (fst p) (snd p)) l)
        by (apply map_ext; intros p; apply says_group_of).
      destruct l as [|p l]; [reflexivity|]. rewrite <- raw_32. rewrite M.
      destruct (undisplayable (snd p) (raw (snd p) t)); reflexivity.
    + destruct (listed s (t_dst t)); reflexivity.
  - destruct (plain t); [|reflexivity]. cbn [andb]. unfold property_outcome, individual_accepts.
    destruct (property_service t) as [svc|]; cbn [told].
    + unfold takes_from. destruct k.
      * destruct (t_src t =? _); [|reflexivity]. destruct (4 <=? zlen (t_data t)); reflexivity.
      * destruct ((t_dst t =? _) && _); [|reflexivity]. destruct (4 <=? zlen (t_data t)); reflexivity.
    + destruct k; match goal with |- context [if ?b then _ else _] => destruct b end; reflexivity.
Qed.

(** ** Results on each medium *)

Lemma report_told c m k t st s go : reports m k t -> st_medium st = Usb_hid -> st_assoc st = Some s -> st_gobj st = Some go ->
  fst (decode_msg c m st) = told s go (gist_of k t).
Proof.
  intros (O & cemi & U & T) Hm Ha Hg.
  assert (B : on_bus st m = Some (k, t)) by (unfold on_bus; rewrite Hm, U; exact T).
  destruct (decode_telegram c m st s go k t Ha Hg O (or_introl Hm) B) as [_ ->]. cbn [fst].
  rewrite outcome_told. unfold reported. rewrite Hm.
  destruct (told s go (gist_of k t)) as [[x| |x]|e] eqn:E; try reflexivity.
  exfalso. rewrite <- outcome_told in E. unfold telegram_outcome in E.
  repeat match type of E with context [if ?b then _ else _] => destruct b end; try discriminate E.
  - destruct (group_outcome s go k t); discriminate E.
  - destruct (property_outcome k t); discriminate E.
Qed.
Lemma tunnel_told n m k t st s go : tunnels n m k t -> st_medium st = Knxnet_ip -> st_assoc st = Some s -> st_gobj st = Some go ->
  fst (decode_msg CNetIP m st) =
  if st_remote st =? n then behind_request n (told s go (gist_of k t))
  else if st_remote st =? n + 1 then Ok (RList [MTunnelingReq n 0]) else Ok (RList [MTunnelingReq n 3]).
Proof.
  intros (O & cemi & U & T) Hm Ha Hg. unfold decode_msg. unfold mbind at 1, mget at 1. rewrite Hm.
  destruct (tunnelled_some m n cemi st O U) as [Oc ->].
  destruct (msg_code_some cemi st s go k t Ha Hg Oc T) as [P ->]. cbn [fst snd]. rewrite outcome_told.
  destruct (st_remote st =? n); [reflexivity|]. destruct (st_remote st =? n + 1); reflexivity.
Qed.

(** ** Applications that tell gists apart *)

Definition spot : asap := mkasap 1 None.
Definition spots : gobj_table := [(spot, Float_32)].
Lemma own_only ia l : assoc_new (at_new (mkaddr 1 ia) l 255) [] =
  Ok (mkassoc (at_new (mkaddr 1 ia) l 255) [(mkasap 0 (Some "individual address"%string), [mkaddr 1 ia])]
       (rebuild_tsaps (at_new (mkaddr 1 ia) l 255) [(mkasap 0 (Some "individual address"%string), [mkaddr 1 ia])])).
Proof.
  unfold assoc_new, associate. cbn [assoc_insert at_new at_ia as_table as_addresses].
  unfold addr_is. cbn [a_ref a_val]. rewrite Z.eqb_refl. cbn [N.eqb Pos.eqb andb negb]. rewrite andb_false_r. reflexivity.
Qed.
(** Own address [ia], one association with the address [d]. *)
Lemma listener ia d : exists tb l h s, built tb l h s /\
  a_val (at_ia (as_table s)) = ia /\ at_addrs (as_table s) = [mkaddr 2 d] /\ reached s spots d = Ok spots.
Proof.
  exists (at_new (mkaddr 1 ia) [] 255), [], [Associate spot [mkaddr 2 d]]. eexists.
  match goal with |- ?A /\ _ => assert (B : A) end.
  { unfold built. do 2 eexists. split; [apply own_only|]. split; [reflexivity|]. constructor; [reflexivity|constructor]. }
  split; [exact B|]. split; [reflexivity|]. split; [reflexivity|].
  match type of B with built ?tb ?l ?h ?s => pose proof (reached_balance tb l h s spots d B) as R end.
  match type of R with ?K -> _ => assert (K' : K) by (left; left; reflexivity) end.
  specialize (R K'). assert (Bal : balance (at_new (mkaddr 1 ia) [] 255) [] [Associate spot [mkaddr 2 d]] 1 d = 1).
  { unfold balance, occ. cbn [initial_calls map app balance1 asap_value Z.eqb Pos.eqb spot zsum fold_right vals a_val filter].
    unfold occ. cbn [filter]. rewrite Z.eqb_refl. reflexivity. }
  match type of R with match ?r with _ => _ end => destruct r as [r'|e]; [|exfalso] end.
  - f_equal. destruct R as [-> _]. cbn [filter spots fst asap_value spot]. rewrite Bal. reflexivity.
  - destruct R as [_ R]. specialize (R 1). rewrite Bal in R. discriminate R.
Qed.
(** Own address [ia], the group addresses [l], nothing else. *)
Lemma bystander ia l : exists tb l0 h s, built tb l0 h s /\
  a_val (at_ia (as_table s)) = ia /\ vals (at_addrs (as_table s)) = vals (sort_addrs (map (mkaddr 2) l)).
Proof.
  exists (at_new (mkaddr 1 ia) (map (mkaddr 2) l) 255), [], []. eexists. split.
  - unfold built. do 2 eexists. split; [apply own_only|]. split; [reflexivity|]. constructor.
  - split; reflexivity.
Qed.

Definition separates (s : assoc_table) (go : gobj_table) (g1 g2 : gist) : Prop := told s go g1 <> told s go g2.
Definition separable (g1 g2 : gist) : Prop := exists tb l h s go, built tb l h s /\ separates s go g1 g2.
Lemma separable_sym g1 g2 : separable g1 g2 -> separable g2 g1.
Proof. intros (tb & l & h & s & go & B & S0). exists tb, l, h, s, go. split; [exact B|]. intros E. apply S0. auto. Qed.

Lemma not_listed s d g : at_addrs (as_table s) = [mkaddr 2 d] -> listed s g = (g =? d).
Proof. intros E. unfold listed. rewrite E. cbn. apply orb_false_r. Qed.
Lemma says_group_32 k svc v sta a : 0 <= v < 2 ^ 32 ->
  says_group k svc v sta a Float_32 = match k, svc with
  | Ind, Read => MGroupValueReadInd a (mkdpt Float_32 v)
  | Ind, Response => MGroupValueResponseInd a (mkdpt Float_32 v)
  | Ind, Write => MGroupValueWriteInd a (mkdpt Float_32 v)
  | Con, Read => MGroupValueReadCon a (mkdpt Float_32 v) sta
  | Con, Response => MGroupValueResponseCon a (mkdpt Float_32 v) sta
  | Con, Write => MGroupValueWriteCon a (mkdpt Float_32 v) sta
  end.
Proof. intros V. unfold says_group. rewrite Z.mod_small by exact V. reflexivity. Qed.

(** Gists of telegrams: values of 32 bits, no status in indications. *)
Definition fair (g : gist) : Prop :=
  match g with GroupSays k _ _ v sta => 0 <= v < 2 ^ 32 /\ (k = Ind -> sta = 0) | _ => True end.
Lemma fair_of k t : fair (gist_of k t).
Proof.
  unfold gist_of. destruct (group_addressed t).
  - destruct (t_dst t =? 0); [exact Logic.I|]. destruct (plain t); [|exact Logic.I]. cbn [negb].
    destruct (group_service t); [|exact Logic.I]. split; [apply Z.mod_pos_bound; reflexivity|]. intros ->. reflexivity.
  - destruct (plain t); [|exact Logic.I]. destruct (property_service t); exact Logic.I.
Qed.

Definition stranger (g : gist) : Z := match g with PropertySays _ who _ => if who =? 0 then 1 else 0 | _ => 0 end.
Lemma stranger_not g s go k who said : g = PropertySays k who said -> a_val (at_ia (as_table s)) = stranger g ->
  told s go g = Ok (RList []).
Proof.
  intros -> E. cbn [told stranger] in *. unfold takes_from. rewrite E.
  assert (who =? (if who =? 0 then 1 else 0) = false) as -> by (destruct (who =? 0) eqn:Z; lia). destruct k; reflexivity.
Qed.

Lemma separate_group k d svc v sta g : fair (GroupSays k d svc v sta) -> fair g -> g <> GroupSays k d svc v sta ->
  g <> NoList -> separable (GroupSays k d svc v sta) g.
Proof.
  intros F Fg N NL. destruct (listener (stranger g) d) as (tb & l & h & s & B & Ei & El & R).
  exists tb, l, h, s, spots. split; [exact B|]. unfold separates.
  assert (T : forall k svc v sta, told s spots (GroupSays k d svc v sta) = Ok (RList [says_group k svc v sta spot Float_32])).
  { intros. cbn [told]. rewrite (not_listed s d d El), Z.eqb_refl, R. cbn [rbind spots snd fst undisplayable map]. reflexivity. }
  rewrite T. destruct F as [V F]. destruct g as [| |k' d' svc' v' sta'|k' who said].
  - discriminate.
  - congruence.
  - destruct (Z.eq_dec d' d) as [->|D].
    + rewrite T. destruct Fg as [V' Fg]. rewrite !says_group_32 by assumption. intros E. apply N.
      destruct k, svc, k', svc'; try discriminate E; injection E; intros; subst;
        rewrite ?(F eq_refl), ?(Fg eq_refl); reflexivity.
    + cbn [told]. rewrite (not_listed s d d' El). assert (d' =? d = false) as -> by lia. discriminate.
  - rewrite (stranger_not _ s spots k' who said eq_refl Ei). discriminate.
Qed.
Lemma separate_property k who said g : match g with Nothing | PropertySays _ _ _ => True | _ => False end ->
  g <> PropertySays k who said -> separable (PropertySays k who said) g.
Proof.
  intros Sh N.
  assert (D : forall g', match g' with Nothing => True | PropertySays k' who' said' => who' <> who \/ k' = k /\ said' <> said | _ => False end ->
    separable (PropertySays k who said) g').
  { intros g' G. destruct (bystander who []) as (tb & l & h & s & B & Ei & El).
    exists tb, l, h, s, []. split; [exact B|]. unfold separates.
    assert (Ln : forall x, listed s x = false).
    { intros x. destruct (listed s x) eqn:L; [|reflexivity]. apply listed_In in L. rewrite El in L. destruct L. }
    assert (T : forall k, takes_from s k who = true).
    { intros k0. unfold takes_from. rewrite Ei, Z.eqb_refl, Ln. destruct k0; reflexivity. }
    cbn [told]. rewrite T. destruct g' as [| | |k' who' said']; try contradiction.
    - destruct said; discriminate.
    - cbn [told]. destruct G as [G|[-> G]].
      + assert (takes_from s k' who' = false) as ->.
        { unfold takes_from. rewrite Ei. assert (who' =? who = false) as -> by lia. destruct k'; reflexivity. }
        destruct said; discriminate.
      + destruct (Z.eq_dec who' who) as [->|W].
        * rewrite T. destruct said, said'; try discriminate; try congruence.
        * assert (takes_from s k who' = false) as ->.
          { unfold takes_from. rewrite Ei. assert (who' =? who = false) as -> by lia. destruct k; reflexivity. }
          destruct said; discriminate. }
  destruct g as [| | |k' who' said']; try contradiction.
  - apply D. exact Logic.I.
  - destruct (Z.eq_dec who' who) as [->|W]; [|apply D; left; exact W].
    assert (K : k' = k \/ k' <> k) by (destruct k, k'; (left; reflexivity) || (right; discriminate)).
    destruct K as [->|K]; [apply D; right; split; [reflexivity|congruence]|].
    destruct (bystander who [who]) as (tb & l & h & s & B & Ei & El).
    exists tb, l, h, s, []. split; [exact B|]. unfold separates. cbn [told]. unfold takes_from. rewrite Ei, Z.eqb_refl.
    assert (listed s who = true) as -> by (apply listed_In; rewrite El; left; reflexivity).
    destruct k, k'; try congruence; cbn [andb negb]; destruct said, said'; discriminate.
Qed.
Lemma separate_behind g1 g2 : fair g1 -> fair g2 -> g1 <> NoList -> g2 <> NoList -> g1 <> g2 -> separable g1 g2.
Proof.
  intros F1 F2 N1 N2 N. destruct g1 as [| |k d svc v sta|k who said]; [| |apply separate_group; auto|].
  - destruct g2 as [| |k d svc v sta|k who said]; try congruence.
    + apply separable_sym. apply separate_group; auto.
    + apply separable_sym. apply separate_property; [exact Logic.I|congruence].
  - congruence.
  - destruct g2 as [| |k' d svc v sta|k' who' said']; try congruence.
    + apply separate_property; [exact Logic.I|congruence].
    + apply separable_sym. apply separate_group; auto.
    + apply separate_property; [exact Logic.I|congruence].
Qed.
Lemma told_none s go g : told s go g = Ok RNone -> g = NoList.
Proof.
  destruct g as [| |k d svc v sta|k who said]; cbn [told]; intros E; try discriminate E; try reflexivity; exfalso.
  - destruct (listed s d); [|discriminate E]. destruct (reached s go d) as [l|]; [|discriminate E]. cbn [rbind] in E.
    match type of E with (if ?b then _ else _) = _ => destruct b end; discriminate E.
  - destruct (takes_from s k who); [|discriminate E]. destruct said; discriminate E.
Qed.
Lemma separate g1 g2 : fair g1 -> fair g2 -> g1 <> g2 -> separable g1 g2.
Proof.
  intros F1 F2 N.
  assert (A : forall g, g <> NoList -> separable NoList g).
  { intros g G. destruct (bystander 0 []) as (tb & l & h & s & B & _). exists tb, l, h, s, []. split; [exact B|].
    unfold separates. intros E. apply G. apply (told_none s []). rewrite <- E. reflexivity. }
  assert (X : forall g, g = NoList \/ g <> NoList) by (intros [| | |]; (left; reflexivity) || (right; discriminate)).
  destruct (X g1) as [->|N1]; [apply A; congruence|]. destruct (X g2) as [->|N2]; [apply separable_sym, A; congruence|].
  apply separate_behind; assumption.
Qed.
Lemma message_dec (m1 m2 : message) : {m1 = m2} + {m1 <> m2}.
Proof.
  assert (S1 : forall x y : string, {x = y} + {x <> y}) by apply string_dec.
  assert (Z1 : forall x y : Z, {x = y} + {x <> y}) by apply Z.eq_dec.
  assert (D1 : forall x y : dpt, {x = y} + {x <> y}) by (decide equality; decide equality).
  assert (A1 : forall x y : asap, {x = y} + {x <> y}) by (decide equality; decide equality).
  assert (M1 : forall x y : list Z, {x = y} + {x <> y}) by (apply list_eq_dec; apply Z.eq_dec).
  assert (O1 : forall x y : option Z, {x = y} + {x <> y}) by decide equality.
  decide equality.
Qed.
Lemma gist_dec (g1 g2 : gist) : {g1 = g2} + {g1 <> g2}.
Proof.
  assert (Z1 : forall x y : Z, {x = y} + {x <> y}) by apply Z.eq_dec.
  assert (O1 : forall x y : option message, {x = y} + {x <> y}) by (decide equality; apply message_dec).
  decide equality; decide equality.
Qed.

(** ** Alike exactly when the gists are the same *)

Lemma alike_usb c m1 k1 t1 m2 k2 t2 : reports m1 k1 t1 -> reports m2 k2 t2 ->
  (alike_on Usb_hid c m1 m2 <-> gist_of k1 t1 = gist_of k2 t2).
Proof.
  intros R1 R2. split.
  - intros A. destruct (gist_dec (gist_of k1 t1) (gist_of k2 t2)) as [E|N]; [exact E|exfalso].
    destruct (separate _ _ (fair_of k1 t1) (fair_of k2 t2) N) as (tb & l & h & s & go & B & D).
    apply D. set (st := state_new Usb_hid (Some s) (Some go)).
    rewrite <- (report_told c m1 k1 t1 st s go), <- (report_told c m2 k2 t2 st s go) by (assumption || reflexivity).
    apply (A st tb l h s go); (assumption || reflexivity).
  - intros E st tb l h s go Hm B Ha Hg.
    rewrite (report_told c m1 k1 t1 st s go), (report_told c m2 k2 t2 st s go) by assumption. rewrite E. reflexivity.
Qed.
Lemma behind_told n s go g : behind_request n (told s go g) = behind_request n (told s go (behind_tunnel g)).
Proof. destruct g; reflexivity. Qed.
Lemma told_list s go g : g <> NoList -> (exists x, told s go g = Ok (RList x)) \/ exists e, told s go g = Err e.
Proof.
  intros N. destruct g as [| |k d svc v sta|k who said]; cbn [told]; try congruence; eauto.
  - destruct (listed s d); [|eauto]. destruct (reached s go d) as [l|]; cbn [rbind]; [|eauto].
    match goal with |- context [if ?b then _ else _] => destruct b end; eauto.
  - destruct (takes_from s k who); [|eauto]. destruct said; eauto.
Qed.
Lemma alike_ip n m1 k1 t1 m2 k2 t2 : tunnels n m1 k1 t1 -> tunnels n m2 k2 t2 ->
  (alike_on Knxnet_ip CNetIP m1 m2 <-> behind_tunnel (gist_of k1 t1) = behind_tunnel (gist_of k2 t2)).
Proof.
  intros R1 R2. split.
  - intros A. destruct (gist_dec (behind_tunnel (gist_of k1 t1)) (behind_tunnel (gist_of k2 t2))) as [E|N]; [exact E|exfalso].
    assert (F : forall k t, fair (behind_tunnel (gist_of k t)) /\ behind_tunnel (gist_of k t) <> NoList).
    { intros k t. pose proof (fair_of k t). destruct (gist_of k t); split; try discriminate; assumption || exact Logic.I. }
    destruct (F k1 t1) as [F1 N1], (F k2 t2) as [F2 N2].
    destruct (separate_behind _ _ F1 F2 N1 N2 N) as (tb & l & h & s & go & B & D).
    apply D. set (st := mkstate Knxnet_ip (Some s) (Some go) None None None None n 0 None).
    pose proof (A st tb l h s go eq_refl B eq_refl eq_refl) as X.
    rewrite (tunnel_told n m1 k1 t1 st s go), (tunnel_told n m2 k2 t2 st s go) in X by (assumption || reflexivity).
    change (st_remote st) with n in X. rewrite Z.eqb_refl in X. rewrite (behind_told n s go (gist_of k1 t1)), (behind_told n s go (gist_of k2 t2)) in X.
    destruct (told_list s go _ N1) as [[x1 E1]|[e1 E1]], (told_list s go _ N2) as [[x2 E2]|[e2 E2]];
      rewrite E1, E2 in *; cbn [behind_request] in X; congruence.
  - intros E st tb l h s go Hm B Ha Hg.
    rewrite (tunnel_told n m1 k1 t1 st s go), (tunnel_told n m2 k2 t2 st s go) by assumption.
    rewrite (behind_told n s go (gist_of k1 t1)), (behind_told n s go (gist_of k2 t2)), E. reflexivity.
Qed.

(** ** Bits that never matter *)

Lemma idle_group k t c1 c2 src len : group_addressed t = true ->
  c2 / 128 = t_c2 t / 128 -> (k = Con -> c1 mod 2 = t_c1 t mod 2) ->
  gist_of k (mktg c1 c2 src (t_dst t) len (t_tpci t) (t_apci t) (t_data t)) = gist_of k t.
Proof.
  intros G C2 C1. unfold gist_of.
  assert (group_addressed (mktg c1 c2 src (t_dst t) len (t_tpci t) (t_apci t) (t_data t)) = true) as ->
    by (unfold group_addressed in *; cbn [t_c2]; lia).
  rewrite G. cbn [t_dst]. destruct (t_dst t =? 0); [reflexivity|].
  assert (status (mktg c1 c2 src (t_dst t) len (t_tpci t) (t_apci t) (t_data t)) = c1 mod 2) as -> by reflexivity.
  unfold status. destruct k; [reflexivity|]. rewrite (C1 eq_refl). reflexivity.
Qed.
Lemma idle_property k t c1 c2 other len : group_addressed t = false ->
  c2 / 128 = t_c2 t / 128 -> (k = Con -> c1 mod 2 = t_c1 t mod 2) ->
  gist_of k (mktg c1 c2 (match k with Ind => t_src t | Con => other end) (match k with Ind => other | Con => t_dst t end)
               len (t_tpci t) (t_apci t) (t_data t)) = gist_of k t.
Proof.
  intros G C2 C1. unfold gist_of.
  match goal with |- (if group_addressed ?x then _ else _) = _ => assert (group_addressed x = false) as ->
    by (unfold group_addressed in *; cbn [t_c2]; lia) end.
  rewrite G. match goal with |- (if plain ?x then _ else _) = _ =>
    assert (plain x = plain t) as -> by reflexivity; assert (property_service x = property_service t) as -> by reflexivity end.
  destruct (plain t); [|reflexivity]. destruct (property_service t) as [svc|]; [|reflexivity]. cbn [t_data].
  destruct k; cbn [t_src t_dst]; [destruct svc; reflexivity|].
  unfold property_message, status. cbn [t_data t_c1]. rewrite (C1 eq_refl). reflexivity.
Qed.
