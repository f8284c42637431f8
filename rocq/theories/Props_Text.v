(** C73: the text forms of numbers, addresses and tables. *)
From Coq Require Import String Ascii ZArith NArith List Bool Lia.
From Verif Require Import Py Base Msg Address Dpt Tables Text.
From Verif Require Import SpecMsg SpecInet SpecTables SpecText MsgProofs TablesProofs TextProofs Props_Tables.
Import ListNotations.
Open Scope Z_scope.

(** ** C73 *)

(** Octets, 16-bit and 32-bit numbers show their octets in hexadecimal, as
    messages do (C01). *)
Theorem C73_octets : forall m, octets m ->
  (length m = 1%nat -> octect_text (big_endian m) = ("0x" ++ text_of m)%string) /\
  (length m = 2%nat -> short_text (big_endian m) = ("0x" ++ text_of m)%string /\
                       individual_text (big_endian m) = ("0x" ++ text_of m)%string) /\
  (length m = 4%nat -> long_text (big_endian m) = ("0x" ++ text_of m)%string).
Proof.
  intros m H. pose proof (hexpad_octets m H) as E.
  split; [|split; [|]]; intros N; rewrite N in E; cbn [Nat.mul Nat.add] in E;
    unfold octect_text, short_text, individual_text, long_text; rewrite E; auto.
Qed.
Print Assumptions C73_octets.

(** Integers are shown in decimal; a number has exactly one decimal text, and a
    text shows at most one number. *)
Theorem C73_decimal : forall v s, decimal s v <-> s = dec v.
Proof. intros v s. split; [apply decimal_dec|]. intros ->. apply dec_spec. Qed.
Print Assumptions C73_decimal.
Theorem C73_decimal_unambiguous : forall s v w, decimal s v -> decimal s w -> v = w.
Proof. exact decimal_fun. Qed.
Print Assumptions C73_decimal_unambiguous.

(** A group address is shown as its two octets and its parts in the two-level and
    the three-level notation. *)
Theorem C73_group : forall hi lo, is_octet hi -> is_octet lo -> exists m2 s2 m3 i3 s3,
  group_text (256 * hi + lo) = ("(0x" ++ text_of [hi; lo] ++ " " ++ m2 ++ "/" ++ s2 ++ " " ++ m3 ++ "/" ++ i3 ++ "/" ++ s3 ++ ")")%string /\
  decimal m2 (hi / 8) /\ decimal s2 (256 * (hi mod 8) + lo) /\
  decimal m3 (hi / 8) /\ decimal i3 (hi mod 8) /\ decimal s3 lo.
Proof.
  intros hi lo Hh Hl. unfold is_octet in *.
  exists (dec (two_main (256 * hi + lo))), (dec (two_sub (256 * hi + lo))), (dec (three_main (256 * hi + lo))),
    (dec (three_middle (256 * hi + lo))), (dec (three_sub (256 * hi + lo))). split.
  - unfold group_text. pose proof (hexpad_octets [hi; lo]) as E. cbn [length Nat.mul Nat.add] in E.
    change (big_endian [hi; lo]) with (256 * (256 * 0 + hi) + lo) in E. replace (256 * (256 * 0 + hi) + lo) with (256 * hi + lo) in E by lia.
    rewrite E by (constructor; [exact Hh|constructor; [exact Hl|constructor]]). reflexivity.
  - unfold two_main, two_sub, three_main, three_middle, three_sub. rewrite !get_arith by lia.
    change (2 ^ 11) with 2048. change (2 ^ 5) with 32. change (2 ^ 0) with 1. change (2 ^ 8) with 256. change (2 ^ 3) with 8.
    replace (((256 * hi + lo) / 2048) mod 32) with (hi / 8) by lia.
    replace (((256 * hi + lo) / 1) mod 2048) with (256 * (hi mod 8) + lo) by lia.
    replace (((256 * hi + lo) / 256) mod 8) with (hi mod 8) by lia.
    replace (((256 * hi + lo) / 1) mod 256) with lo by lia.
    repeat split; apply dec_spec.
Qed.
Print Assumptions C73_group.

(** The texts of addresses tell kind and number, although objects of the two
    kinds with one number count as equal. *)
Theorem C73_address : forall kind a b, sixteen_bits a -> sixteen_bits b ->
  (addr_text kind a = addr_text kind b <-> seen_address kind a = seen_address kind b).
Proof.
  intros kind a b Ha Hb. split; [apply addr_text_inj; assumption|].
  unfold seen_address, addr_text. intros E. injection E as -> ->. reflexivity.
Qed.
Print Assumptions C73_address.

(** The text of an address table has, for every TSAP k, a row showing the
    address get_address gives for k, and no other rows with a number. *)
Theorem C73_address_rows : forall kind t k s entry, 0 <= k -> decimal s k ->
  (In (row s entry) (lines (at_text kind t)) <-> exists a, at_get_address t (Some k) = Ok a /\ entry = addr_text kind a).
Proof. exact at_shows. Qed.
Print Assumptions C73_address_rows.
(** It consists of five lines and one row per address, ended by a line end. *)
Theorem C73_address_lines : forall kind t,
  zlen (lines (at_text kind t)) = 6 + zlen (at_addrs t) /\
  nth_error (lines (at_text kind t)) (5 + length (at_addrs t)) = Some ""%string.
Proof.
  intros kind t. rewrite at_text_lines. unfold at_head.
  assert (R : forall l k, length (rows_from kind k l) = length l) by (induction l; intros; cbn; auto).
  rewrite !zlen_app. unfold zlen at 2. rewrite R. split; [cbn; unfold zlen; lia|].
  rewrite nth_error_app2 by (cbn; lia). rewrite nth_error_app2 by (rewrite R; cbn; lia).
  rewrite R. cbn [length]. replace (5 + length (at_addrs t) - 5 - length (at_addrs t))%nat with 0%nat by lia. reflexivity.
Qed.
Print Assumptions C73_address_lines.
(** Nothing visible is lost: tables with the same text agree in everything but the
    identity of the address objects. *)
Theorem C73_address_table : forall kind t u, table_sixteen t -> table_sixteen u ->
  (at_text kind t = at_text kind u <-> seen_table kind t = seen_table kind u).
Proof.
  intros kind t u Ht Hu. split.
  - intros E. apply at_lines_inj; [exact Ht|exact Hu|congruence].
  - unfold seen_table. intros E. injection E as E1 E2 E3 E4.
    assert (A : forall a b, seen_address kind a = seen_address kind b -> addr_text kind a = addr_text kind b).
    { intros a b. unfold seen_address, addr_text. intros X. injection X as -> ->. reflexivity. }
    assert (R : forall l m k, map (seen_address kind) l = map (seen_address kind) m -> at_rows kind k l = at_rows kind k m).
    { induction l as [|a l IH]; intros [|b m] k X; try discriminate X; [reflexivity|].
      apply cons_inj in X. destruct X as [X1 X2]. cbn [at_rows]. rewrite (A a b X1), (IH m (k + 1) X2). reflexivity. }
    unfold at_text. rewrite (A (at_ia t) (at_ia u)) by (unfold seen_address; congruence). rewrite E3, (R _ _ 1 E4). reflexivity.
Qed.
Print Assumptions C73_address_table.

(** The text of an association table whose names have no line ends: a head, one
    row per ASAP in the order of their first association, showing the ASAP and
    the list of its addresses, and the text of the address table. *)
Theorem C73_association_lines : forall kind s, one_line_names (map fst (as_addresses s)) ->
  lines (as_text kind s) = "AssociationTable: asap -> addresses"%string
    :: map (fun e => row (asap_text (fst e)) (list_text kind (snd e))) (as_addresses s) ++ lines (at_text kind (as_table s)).
Proof. exact as_text_lines. Qed.
Print Assumptions C73_association_lines.
(** Such a text determines everything visible of both tables. *)
Theorem C73_association_table : forall kind s u,
  one_line_names (map fst (as_addresses s)) -> one_line_names (map fst (as_addresses u)) ->
  table_sixteen (as_table s) -> table_sixteen (as_table u) ->
  Forall (fun e => Forall sixteen_bits (snd e)) (as_addresses s) -> Forall (fun e => Forall sixteen_bits (snd e)) (as_addresses u) ->
  as_text kind s = as_text kind u ->
  seen_associations kind s = seen_associations kind u /\ seen_table kind (as_table s) = seen_table kind (as_table u).
Proof. exact as_inj. Qed.
Print Assumptions C73_association_table.
(** So does the text of a group object table for its entries. *)
Theorem C73_group_objects : forall d e, one_line_names (map fst d) -> one_line_names (map fst e) ->
  go_text d = go_text e ->
  map (fun x => (seen_asap (fst x), snd x)) d = map (fun x => (seen_asap (fst x), snd x)) e.
Proof.
  intros d e Hd He E. apply (f_equal lines) in E. rewrite !go_text_lines in E by assumption.
  apply cons_inj in E. apply go_rows_inj. exact (proj2 E).
Qed.
Print Assumptions C73_group_objects.

(** The texts the documentation of the code shows. *)
Definition tx_kind (r : N) : bool := negb (N.eqb r 1).
Definition tx_nl : string := String line_end EmptyString.
Example C73_documented :
  group_text 0x0901 = "(0x0901 1/257 1/1/1)"%string /\ group_text 0x1202 = "(0x1202 2/514 2/2/2)"%string /\
  addr_text tx_kind (mkaddr 1 4097) = "0x1001"%string /\ addr_text tx_kind (mkaddr 2 0xAA) = "(0x00AA 0/170 0/0/170)"%string /\
  long_text 0x91000008 = "0x91000008"%string /\ octect_text 7 = "0x07"%string /\ dec (-120) = "-120"%string /\
  asap_text (mkasap 1 (Some "one"%string)) = "1 (one)"%string /\ asap_text (mkasap 1 (Some ""%string)) = "1"%string.
Proof. vm_compute. auto 20. Qed.
Definition tx_table : address_table := mkat 255 (mkaddr 1 0x1001) [mkaddr 2 111].
Definition tx_assoc : assoc_table := mkassoc tx_table
  [(mkasap 0 (Some "individual address"%string), [mkaddr 1 0x1001]); (mkasap 1 (Some "one"%string), [mkaddr 2 111])]
  [(Some 0, [mkasap 0 (Some "individual address"%string)]); (Some 1, [mkasap 1 (Some "one"%string)])].
Example C73_example :
  assoc_new (at_new (mkaddr 1 0x1001) [] 255) [(mkasap 1 (Some "one"%string), mkaddr 2 111)] = Ok tx_assoc /\
  lines (as_text tx_kind tx_assoc) =
  ["AssociationTable: asap -> addresses"; "    0 (individual address) -> [0x1001]"; "    1 (one) -> [(0x006F 0/111 0/0/111)]";
   "AddressTable: individual address: 0x1001, max_size=255"; ""; "    tsap -> individual address"; "    0 -> 0x1001";
   "    tsap -> group address (hex_free_style two_level_style three_level_style)"; "    1 -> (0x006F 0/111 0/0/111)"; ""]%string /\
  one_line_names (map fst (as_addresses tx_assoc)) /\ table_sixteen tx_table /\
  Forall (fun e => Forall sixteen_bits (snd e)) (as_addresses tx_assoc) /\
  lines (go_text [(mkasap 1 None, Switch)]) = ["GroupObjectTable: ASAP -> datapointtype"; "    1 -> DPT_Switch"; ""]%string.
Proof.
  split; [vm_compute; reflexivity|]. split; [vm_compute; reflexivity|].
  split; [constructor; [|constructor; [|constructor]]; vm_compute; intuition discriminate|].
  unfold table_sixteen, sixteen_bits, tx_table. cbn.
  split; [split; [lia|repeat constructor; cbn; lia]|]. split; [|vm_compute; reflexivity].
  unfold sixteen_bits. repeat (constructor; cbn; try lia).
Qed.
Example C73_decimals : decimal "1" 1 /\ decimal "-120" (-120) /\ ~ decimal "01" 1 /\ In (row "1" "(0x006F 0/111 0/0/111)") (lines (at_text tx_kind tx_table)).
Proof.
  split; [apply C73_decimal; vm_compute; reflexivity|]. split; [apply C73_decimal; vm_compute; reflexivity|].
  split; [intros H; apply C73_decimal in H; vm_compute in H; discriminate H|].
  apply (C73_address_rows tx_kind tx_table 1); [lia|apply C73_decimal; vm_compute; reflexivity|]. exists (mkaddr 2 111).
  split; vm_compute; reflexivity.
Qed.
(** A name with a line end can imitate a row: two tables built by calls, with
    different associations, and one text. *)
Theorem C73_names_refuted : exists t h1 h2 s1 s2, built t [] h1 s1 /\ built t [] h2 s2 /\
  as_text tx_kind s1 = as_text tx_kind s2 /\ seen_associations tx_kind s1 <> seen_associations tx_kind s2.
Proof.
  exists (at_new (mkaddr 1 0x1001) [] 255),
    [Associate (mkasap 1 (Some "a) -> []
    2 (b"%string)) []], [Associate (mkasap 1 (Some "a"%string)) []; Associate (mkasap 2 (Some "b"%string)) []].
  eexists. eexists. split; [eexists; exists [Ok tt]; split; [vm_compute; reflexivity|]; split; [vm_compute; reflexivity|repeat constructor]|].
  split; [eexists; exists [Ok tt; Ok tt]; split; [vm_compute; reflexivity|]; split; [vm_compute; reflexivity|repeat constructor]|].
  split; [vm_compute; reflexivity|]. intros E. vm_compute in E. discriminate E.
Qed.
Print Assumptions C73_names_refuted.
