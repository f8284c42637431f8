(** C113: the tables are a notebook of numbers. *)
From Coq Require Import String ZArith NArith List Bool Lia.
From Verif Require Import Py Address Dpt Tables Base SpecTables SpecShared SpecBook BookProofs Props_Tables.
Import ListNotations.
Open Scope Z_scope.

(** Whatever calls are made on a new association table and on its address table,
    returning or raising, in any order: the notebook gives the same outcomes, call
    by call, and afterwards tells the listed numbers, the ASAPs, to which numbers
    each ASAP sends and to which ASAPs each address is routed, exceptions
    included. *)
Theorem C113_book t l s0 h os s :
  assoc_new t l = Ok s0 -> table_run s0 h = (os, s) ->
  exists b0 b, book_new t l = Ok b0 /\ book_run b0 h = (os, b) /\
    vals (at_addrs (as_table s)) = b_listed b /\
    map asap_value (as_asaps s) = map fst (b_pages b) /\
    (forall a, seen_as vals (sends_to s a) = book_sends b (asap_value a)) /\
    forall g, seen_as (map asap_value) (as_get_asaps_from_address s g) = book_routes b (a_val g).
Proof.
  intros N R. pose proof (new_kept t l) as K. rewrite N in K. destruct (book_new t l) as [b0|e]; [|destruct K].
  destruct (run_kept h s0 b0 K) as [O K1]. rewrite R in O, K1. cbn [fst snd] in *.
  exists b0, (snd (book_run b0 h)). split; [reflexivity|]. split; [rewrite O; apply surjective_pairing|].
  split; [symmetry; apply K1|]. split; [apply kept_asaps, K1|]. split; intros; [apply kept_sends, K1|apply kept_routes, K1].
Qed.
Print Assumptions C113_book.

(** And a table that cannot be made has no notebook, for the same reason. *)
Theorem C113_refused t l e : assoc_new t l = Err e <-> book_new t l = Err e.
Proof.
  pose proof (new_kept t l) as K. destruct (assoc_new t l) as [s|e1], (book_new t l) as [b|e2]; try (destruct K; fail).
  - split; discriminate.
  - subst e2. split; congruence.
Qed.
Print Assumptions C113_refused.

(** Two tables with the same notebook cannot be told apart, now or after any
    further calls: what is not in the notebook (names of ASAPs, which object stands
    for a listed address) is never used. *)
Theorem C113_same t l s0 h os s t' l' s0' h' os' s' b0 b b0' :
  assoc_new t l = Ok s0 -> table_run s0 h = (os, s) ->
  assoc_new t' l' = Ok s0' -> table_run s0' h' = (os', s') ->
  book_new t l = Ok b0 -> book_new t' l' = Ok b0' -> book_run b0 h = (os, b) -> book_run b0' h' = (os', b) ->
  forall more,
    fst (table_run s more) = fst (table_run s' more) /\
    (forall a, seen_as vals (sends_to (snd (table_run s more)) a) = seen_as vals (sends_to (snd (table_run s' more)) a)) /\
    forall g, seen_as (map asap_value) (as_get_asaps_from_address (snd (table_run s more)) g) =
      seen_as (map asap_value) (as_get_asaps_from_address (snd (table_run s' more)) g).
Proof.
  intros N R N' R' B B' Q Q' more.
  pose proof (new_kept t l) as K. rewrite N, B in K. pose proof (new_kept t' l') as K'. rewrite N', B' in K'.
  destruct (run_kept h s0 b0 K) as [_ K1]. rewrite R, Q in K1. destruct (run_kept h' s0' b0' K') as [_ K1'].
  rewrite R', Q' in K1'. cbn [snd] in *.
  destruct (run_kept more s b K1) as [O2 K2]. destruct (run_kept more s' b K1') as [O2' K2'].
  split; [congruence|]. split.
  - intros a. rewrite (kept_sends _ _ a K2), (kept_sends _ _ a K2'). reflexivity.
  - intros g. rewrite (kept_routes _ _ g K2), (kept_routes _ _ g K2'). reflexivity.
Qed.
Print Assumptions C113_same.

(** A history with calls that raise: 0900h and 0300h are listed, there is
    room for four.  The third call finds no room and has listed 0100h and 0500h by then;
    the fourth moves the listed numbers under the feet of the routes; the fifth
    strikes 0900h off the list before it finds that ASAP 2 never had it. *)
Definition bk_history : list shared_call :=
  [ Through (Associate (mkasap 1 (Some "lamp"%string)) [mkaddr 4 0x0900; mkaddr 5 0x0300])
  ; Through (Associate (mkasap 2 None) [mkaddr 6 0x0300])
  ; Through (Associate (mkasap 3 None) [mkaddr 7 0x0100; mkaddr 8 0x0500; mkaddr 9 0x0700])
  ; Direct (AtRemove (mkaddr 10 0x0100))
  ; Through (Disassociate (mkasap 2 None) [mkaddr 11 0x0900])
  ; Direct (AtSetIA (mkaddr 12 0x0005)) ].
Example C113_example :
  exists s0 s b0 b os, assoc_new ex_table [] = Ok s0 /\ table_run s0 bk_history = (os, s) /\
    book_new ex_table [] = Ok b0 /\ book_run b0 bk_history = (os, b) /\
    os = [Ok tt; Ok tt; Err AddressTableException; Ok tt; Err ValueError; Ok tt] /\
    b_listed b = [0x0300; 0x0500] /\ b_pages b = [(0, [0x1001]); (1, [0x0900; 0x0300]); (2, [0x0300])] /\
    b_then b = (0x1001, [0x0300; 0x0900], b_pages b) /\
    book_sends b 1 = Err TypeError /\ book_sends b 2 = Ok [0x0300] /\ book_sends b 3 = Err KeyError /\
    book_routes b 0x0300 = Ok [1; 2] /\ book_routes b 0x0500 = Ok [1] /\ book_routes b 0x0900 = Err KeyError /\
    book_routes b 0x0005 = Ok [0].
Proof. do 5 eexists. repeat (split; [vm_compute; reflexivity|]). vm_compute. reflexivity. Qed.
Example C113_refused_example : exists t e, assoc_new t [(mkasap 1 None, mkaddr 4 0x0900)] = Err e /\ e = AddressTableException /\
  book_new t [(mkasap 1 None, mkaddr 4 0x0900)] = Err e.
Proof. exists (at_new (mkaddr 1 0x1001) [] 0), AddressTableException. repeat split. Qed.
(** Another name for the lamp and another object for 0900h: the same notebook. *)
Example C113_same_example : exists b0 b os,
  book_new ex_table [] = Ok b0 /\ book_run b0 bk_history = (os, b) /\
  book_run b0 (Through (Associate (mkasap 1 (Some "fan"%string)) [mkaddr 77 0x0900; mkaddr 5 0x0300]) :: tl bk_history) = (os, b).
Proof. do 3 eexists. repeat (split; [vm_compute; reflexivity|]). vm_compute. reflexivity. Qed.
