(** C11 and C12, continued: order and keys of the tables. *)
From Coq Require Import String ZArith NArith List Bool Lia.
From Verif Require Import Py Base Msg Address Dpt Tables LData State Encode Decode.
From Verif Require Import SpecMsg SpecTables SpecWire SpecShared SpecBook SpecDecode SpecEntries.
From Verif Require Import AssocProofs Props_Tables Props_Encode Props_Decode.
Import ListNotations.
Open Scope Z_scope.

Local Lemma dset_keys {V} a (c : V) g : map fst (dset asap_eqb a c g) = introduce (map fst g) a.
Proof.
  unfold introduce. induction g as [|[k v] g IH]; [reflexivity|]. cbn [dset map fst existsb]. unfold asap_eqb at 1.
  destruct (asap_value k =? asap_value a); [reflexivity|]. cbn [map fst orb]. rewrite IH.
  destruct (existsb _ (map fst g)); reflexivity.
Qed.
Local Lemma dget_absent a (g : gobj_table) : dget asap_eqb a g = None ->
  filter (fun b => negb (asap_value b =? asap_value a)) (map fst g) = map fst g.
Proof.
  induction g as [|[k v] g IH]; [reflexivity|]. cbn [dget map fst filter]. unfold asap_eqb at 1.
  destruct (asap_value k =? asap_value a); [discriminate|]. intros H. cbn [negb]. rewrite (IH H). reflexivity.
Qed.
Local Lemma fresh_filter a (g : gobj_table) : ~ In (asap_value a) (map (fun p => asap_value (fst p)) g) ->
  filter (fun b => negb (asap_value b =? asap_value a)) (map fst g) = map fst g.
Proof.
  induction g as [|[k v] g IH]; [reflexivity|]. cbn [map fst filter]. intros N.
  destruct (Z.eqb_spec (asap_value k) (asap_value a)) as [E|E]; [elim N; left; exact E|].
  cbn [negb]. rewrite IH; [reflexivity|]. intros I. apply N. right. exact I.
Qed.
Local Lemma ddel_keys a g : distinct_keys g -> map fst (ddel asap_eqb a g) = filter (fun b => negb (asap_value b =? asap_value a)) (map fst g).
Proof.
  unfold distinct_keys. induction g as [|[k v] g IH]; [reflexivity|]. cbn [ddel map fst filter]. intros N. inversion N as [|x l N1 N2]; subst.
  unfold asap_eqb at 1. destruct (Z.eqb_spec (asap_value k) (asap_value a)) as [E|E]; cbn [negb].
  - symmetry. apply fresh_filter. rewrite <- E. exact N1.
  - cbn [map fst]. rewrite (IH N2). reflexivity.
Qed.
Local Lemma do_keys g c : distinct_keys g -> map fst (snd (go_do g c)) = keys_step (map fst g) c.
Proof.
  intros N. destruct c as [a k|a]; cbn [go_do snd]; [apply dset_keys|]. unfold go_disassociate. cbn [keys_step].
  destruct (dget asap_eqb a g) eqn:E; cbn [snd]; [apply ddel_keys, N|symmetry; apply dget_absent, E].
Qed.
Local Lemma after_keys h : forall g, distinct_keys g -> map fst (go_after g h) = fold_left keys_step h (map fst g).
Proof.
  induction h as [|c h IH]; intros g N; [reflexivity|]. cbn [go_after fold_left]. rewrite <- do_keys by exact N.
  apply IH. apply (go_do_spec g c 0 N).
Qed.
Local Lemma entry_type g : distinct_keys g -> map (fun p => (fst p, Some (snd p))) g = map (fun a => (a, type_of g (asap_value a))) (map fst g).
Proof.
  intros N. rewrite map_map. apply map_ext_in. intros [a c] I. cbn [fst snd]. f_equal. symmetry. unfold type_of.
  unfold distinct_keys in N. induction g as [|[k v] g IH]; [destruct I|]. cbn [find fst]. cbn [map] in N. inversion N as [|x l N1 N2]; subst.
  destruct I as [E|I]; [injection E as -> ->; rewrite Z.eqb_refl; reflexivity|].
  destruct (Z.eqb_spec (asap_value k) (asap_value a)) as [E|E]; [|apply IH; assumption].
  elim N1. cbn [fst]. rewrite E. exact (in_map (fun p => asap_value (fst p)) g (a, c) I).
Qed.

Local Lemma associate_keys a l s : as_asaps (snd (associate a l s)) =
  match fst (associate a l s) with Ok _ => introduce (as_asaps s) a | Err _ => as_asaps s end.
Proof.
  unfold associate, as_asaps. destruct (assoc_insert l (as_table s)) as [[u|e] t']; cbn [fst snd as_addresses]; [|reflexivity].
  unfold asap_append. destruct (dget asap_eqb a (as_addresses s)); apply dset_keys.
Qed.
Local Lemma call_keys s c : as_asaps (snd (table_call s c)) =
  match c, fst (table_call s c) with Through (Associate a _), Ok _ => introduce (as_asaps s) a | _, _ => as_asaps s end.
Proof.
  destruct c as [[a l|a l]|c]; cbn [table_call as_do].
  - apply associate_keys.
  - unfold disassociate, as_asaps. pose proof (disassoc_loop_keys a l (as_table s) (as_addresses s)) as H.
    destruct (disassoc_loop a l (as_table s) (as_addresses s)) as [[u|e] [t' d']]; cbn [fst snd as_addresses] in *; exact H.
  - unfold as_direct. destruct (at_do (as_table s) c) as [[u|e] t']; reflexivity.
Qed.
Local Lemma run_keys h : forall s, as_asaps (snd (table_run s h)) = fold_left introduce (brought h (fst (table_run s h))) (as_asaps s).
Proof.
  induction h as [|c h IH]; intros s; [reflexivity|]. cbn [table_run]. pose proof (call_keys s c) as K.
  destruct (table_call s c) as [o s1] eqn:T. specialize (IH s1). destruct (table_run s1 h) as [os s2]. cbn [fst snd] in *.
  rewrite IH, K. destruct c as [[a l|a l]|c]; try rewrite T; destruct o; reflexivity.
Qed.
Local Lemma init_keys l : forall s s', assoc_init l s = (Ok tt, s') -> as_asaps s' = fold_left introduce (map fst l) (as_asaps s).
Proof.
  induction l as [|[a x] l IH]; intros s s' H; cbn [assoc_init] in H; [injection H as <-; reflexivity|].
  pose proof (associate_keys a [x] s) as K. destruct (associate a [x] s) as [[u|e] s1]; [|discriminate H]. cbn [fst snd] in K.
  cbn [map fst fold_left]. rewrite <- K. apply IH, H.
Qed.

(** ** C11 *)

(** The ASAPs of the table as objects, after any calls that return or raise, on the
    table or behind its back: each as the call named it that brought it in. *)
Theorem C11_names : forall t l s0 h os s, assoc_new t l = Ok s0 -> table_run s0 h = (os, s) ->
  as_asaps s = fold_left introduce (map fst l ++ brought h os) [own_asap].
Proof.
  intros t l s0 h os s N R. pose proof (run_keys h s0) as K. rewrite R in K. cbn [fst snd] in K. rewrite K, fold_left_app. f_equal.
  unfold assoc_new in N. pose proof (associate_keys own_asap [at_ia t] (mkassoc t [] [])) as K1. fold own_asap in N.
  destruct (associate own_asap [at_ia t] (mkassoc t [] [])) as [[u|e] s1]; [|discriminate N]. cbn [fst snd] in K1.
  destruct (assoc_init l s1) as [[[]|e] s2] eqn:I; [|discriminate N]. injection N as <-. rewrite (init_keys l s1 s2 I), K1. reflexivity.
Qed.
Print Assumptions C11_names.

(** Lookups answer with these objects only, even when the map of the table
    was left behind by a call that raised. *)
Local Definition en_known (s : assoc_table) : Prop := forall key l, dget oz_eqb key (as_tsaps s) = Some l -> incl l (as_asaps s).
Local Lemma rebuild_known t d t' : en_known (mkassoc t' d (rebuild_tsaps t d)).
Proof.
  intros key l H. cbn [as_tsaps] in H. rewrite rebuild_get in H.
  assert (E : l = routed t d key) by (destruct (routed t d key); [discriminate H|injection H as <-; reflexivity]).
  subst l. intros a I. unfold routed in I. apply in_flat_map in I. destruct I as ([b m] & Ip & Ia). unfold sel in Ia.
  cbn [fst snd] in Ia. unfold as_asaps. cbn [as_addresses]. apply in_map_iff in Ia. destruct Ia as (y & <- & _).
  exact (in_map fst d (b, m) Ip).
Qed.
Local Lemma associate_known a l s : en_known s -> en_known (snd (associate a l s)).
Proof.
  intros K. unfold associate. destruct (assoc_insert l (as_table s)) as [[u|e] t']; cbn [snd]; [apply rebuild_known|exact K].
Qed.
Local Lemma call_known s c : en_known s -> en_known (snd (table_call s c)).
Proof.
  intros K. destruct c as [[a l|a l]|c]; cbn [table_call as_do]; [apply associate_known, K| |].
  - unfold disassociate. pose proof (disassoc_loop_keys a l (as_table s) (as_addresses s)) as H.
    destruct (disassoc_loop a l (as_table s) (as_addresses s)) as [[u|e] [t' d']]; cbn [snd] in *; [apply rebuild_known|].
    intros key m G. unfold as_asaps. cbn [as_addresses]. rewrite H. exact (K key m G).
  - unfold as_direct. destruct (at_do (as_table s) c) as [o t']. exact K.
Qed.
Local Lemma run_known h : forall s, en_known s -> en_known (snd (table_run s h)).
Proof.
  induction h as [|c h IH]; intros s K; [exact K|]. cbn [table_run]. pose proof (call_known s c K) as K1.
  destruct (table_call s c) as [o s1]. cbn [snd] in K1. specialize (IH s1 K1). destruct (table_run s1 h) as [os s2]. exact IH.
Qed.
Local Lemma init_known l : forall s, en_known s -> en_known (snd (assoc_init l s)).
Proof.
  induction l as [|[a x] l IH]; intros s K; [exact K|]. cbn [assoc_init]. pose proof (associate_known a [x] s K) as K1.
  destruct (associate a [x] s) as [[u|e] s1]; [apply IH, K1|exact K1].
Qed.
Theorem C11_answers : forall t l s0 h os s x found, assoc_new t l = Ok s0 -> table_run s0 h = (os, s) ->
  as_get_asaps s x = Ok found -> Forall (fun a => In a (fold_left introduce (map fst l ++ brought h os) [own_asap])) found.
Proof.
  intros t l s0 h os s x found N R F. rewrite <- (C11_names t l s0 h os s N R). apply Forall_forall.
  assert (K : en_known s).
  { pose proof (run_known h s0) as K. rewrite R in K. apply K. unfold assoc_new in N.
    pose proof (associate_known own_asap [at_ia t] (mkassoc t [] []) ltac:(intros k m H; discriminate H)) as K1. fold own_asap in N.
    destruct (associate own_asap [at_ia t] (mkassoc t [] [])) as [[u|e] s1]; [|discriminate N]. cbn [snd] in K1.
    pose proof (init_known l s1 K1) as K2. destruct (assoc_init l s1) as [[u2|e] s2]; [|discriminate N]. injection N as <-. exact K2. }
  unfold as_get_asaps in F. destruct (dget oz_eqb x (as_tsaps s)) as [m|] eqn:E; [|discriminate F]. injection F as <-. exact (K x m E).
Qed.
Print Assumptions C11_answers.
(** ASAP 1 is brought in as "lamp" and associated again as "blind"; the call for ASAP 3
    raises and brings in nobody. *)
Definition en_history : list shared_call :=
  [ Through (Associate (mkasap 1 (Some "lamp"%string)) [mkaddr 4 0x0900])
  ; Through (Associate (mkasap 1 (Some "blind"%string)) [mkaddr 5 0x0300])
  ; Through (Associate (mkasap 3 None) [mkaddr 7 0x0100; mkaddr 8 0x0500; mkaddr 9 0x0700]) ].
Example C11_names_example : exists s0 os s, assoc_new ex_table [(mkasap 2 None, mkaddr 3 0x0900)] = Ok s0 /\
  table_run s0 en_history = (os, s) /\ os = [Ok tt; Ok tt; Err AddressTableException] /\
  as_asaps s = [own_asap; mkasap 2 None; mkasap 1 (Some "lamp"%string)] /\
  as_get_asaps s (Some 2) = Ok [mkasap 2 None; mkasap 1 (Some "lamp"%string)].
Proof. do 3 eexists. repeat split; vm_compute; reflexivity. Qed.

(** ** C12 *)

(** The whole table, after any calls: its keys in their order, each with the ASAP
    object of the call that put it there, and the type of the last call. *)
Theorem C12_entries : forall g h, distinct_keys g ->
  map (fun p => (fst p, Some (snd p))) (go_after g h) = standing g h.
Proof.
  intros g h N. rewrite entry_type by (apply (go_after_spec h g 0 N)). rewrite after_keys by exact N. unfold standing.
  apply map_ext. intros a. f_equal. apply (go_after_spec h g (asap_value a) N).
Qed.
Print Assumptions C12_entries.

(** ASAP 1 gets another name and another type: its messages show the new type under
    the old name. It stands before ASAP 2, which was taken out and put back. *)
Definition en_calls : list go_call :=
  [ GoAssociate (mkasap 2 None) Switch; GoAssociate (mkasap 1 (Some "lamp"%string)) Switch; GoDisassociate (mkasap 2 None)
  ; GoAssociate (mkasap 1 (Some "blind"%string)) UpDown; GoAssociate (mkasap 2 None) Alarm ].
Example C12_entries_example : distinct_keys [] /\
  go_after [] en_calls = [(mkasap 1 (Some "lamp"%string), UpDown); (mkasap 2 None, Alarm)] /\
  standing [] en_calls = [(mkasap 1 (Some "lamp"%string), Some UpDown); (mkasap 2 None, Some Alarm)] /\
  fst (decode_msg CUsbHid (ex_usb ex_frame) (state_new Usb_hid (Some ex_assoc) (Some (go_after [] en_calls)))) =
    Ok (RList [MGroupValueWriteInd (mkasap 1 (Some "lamp"%string)) (mkdpt UpDown 0x81)]).
Proof. split; [constructor|]. repeat split; vm_compute; reflexivity. Qed.
