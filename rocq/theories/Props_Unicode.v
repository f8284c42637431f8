(** C102: lines of any bytes. *)
From Coq Require Import String Ascii ZArith NArith List Bool Lia.
From Verif Require Import Py Base Msg Address Dpt Tables LData Inet State Encode Decode Client ClientStream Unicode.
From Verif Require Import SpecMsg SpecTables SpecWire SpecDecode SpecClient SpecFail SpecBlock SpecUnicode.
From Verif Require Import MsgProofs TablesProofs AssocProofs EncodeProofs DecodeProofs FailProofs BlockProofs DeliveryProofs UnicodeProofs.
From Verif Require Import Props_Tables Props_Encode Props_Decode Props_Block.
Import ListNotations.
Open Scope Z_scope.

(** Bytes are taken for the text whose characters have these bytes, and for no
    other; bytes of no text are refused. *)
Theorem C102_utf8 : forall l, octets l ->
  (forall t, utf8 l = Ok t <-> Forall scalar t /\ l = written t) /\
  (forall e, utf8 l = Err e <-> e = ValueError /\ forall t, Forall scalar t -> l <> written t).
Proof.
  intros l O. assert (A : forall t, utf8 l = Ok t <-> Forall scalar t /\ l = written t).
  { intros t. split; [exact (utf8_ok (length l) l t (le_n _) O)|]. intros [F ->]. exact (utf8_written t F). }
  split; [exact A|]. intros e. split.
  - intros E. split; [exact (utf8_err (length l) l e (le_n _) E)|]. intros t F W. rewrite (proj2 (A t) (conj F W)) in E. discriminate E.
  - intros [-> N]. destruct (utf8 l) as [t|e] eqn:E; [destruct (proj1 (A t) eq_refl) as [F W]; destruct (N t F W)|].
    rewrite (utf8_err (length l) l e (le_n _) E). reflexivity.
Qed.
Print Assumptions C102_utf8.

(** make_from_str reads the digits of every script, two by two, and drops one
    left over; anything else is refused. *)
Theorem C102_text : forall zeros t, scripts zeros ->
  (forall m, octects_of_points zeros t = Ok m <-> exists vs, Forall2 (worth zeros) t vs /\ m = pairs vs) /\
  (forall e, octects_of_points zeros t = Err e <-> e = ValueError /\ exists c, In c t /\ forall v, ~ worth zeros c v).
Proof.
  intros zeros t Sc. split; [intros m; exact (octects_points_ok zeros t m Sc)|]. intros e. split.
  - intros E. apply octects_points_err in E. destruct E as (-> & c & I & N). split; [reflexivity|]. exists c. split; [exact I|].
    intros v W. apply (worth_value _ _ _ Sc) in W. congruence.
  - intros (-> & c & I & N). destruct (octects_of_points zeros t) as [m|e] eqn:E.
    + exfalso. apply (octects_points_ok _ _ _ Sc) in E. destruct E as (vs & F & _). clear -I N F.
      induction F as [|a v l vs Wa _ IH]; [destruct I|]. destruct I as [->|I]; [exact (N v Wa)|exact (IH I)].
    + apply octects_points_err in E. destruct E as [-> _]. reflexivity.
Qed.
Print Assumptions C102_text.

(** The reader takes a line of such digits like the same line in digits of
    ASCII, whatever its last character is ... *)
Theorem C102_same : forall zeros t vs x st, scripts zeros -> Forall scalar t -> Forall2 (worth zeros) (removelast t) vs ->
  usb_read_bytes zeros (written t) st = usb_read (string_of_list_ascii (map digit vs ++ [x])) st.
Proof. exact same_read. Qed.
Print Assumptions C102_same.
(** ... and is ended by every other line, with the state as it was. *)
Theorem C102_refused : forall zeros line st, scripts zeros -> octets line ->
  (forall t vs, Forall scalar t -> line = written t -> ~ Forall2 (worth zeros) (removelast t) vs) ->
  usb_read_bytes zeros line st = (Err ValueError, st).
Proof. exact unreadable. Qed.
Print Assumptions C102_refused.

(** So the bytes that end the reader, and with which exception, are those. *)
Theorem C102_ends : forall zeros tb l h st s go line e, scripts zeros -> octets line ->
  built tb l h s -> st_medium st = Usb_hid -> st_assoc st = Some s -> st_gobj st = Some go ->
  (fst (usb_read_bytes zeros line st) = Err e <->
   (e = ValueError /\ forall t vs, Forall scalar t -> line = written t -> ~ Forall2 (worth zeros) (removelast t) vs) \/
   (exists t vs, Forall scalar t /\ line = written t /\ Forall2 (worth zeros) (removelast t) vs /\
                 ends tb l h st s go (string_of_list_ascii (map digit vs ++ [ascii_of_nat 10])) e)).
Proof.
  intros zeros tb l h st s go line e Sc O B M Ha Hg.
  assert (R : forall text, fst (usb_read text st) = Err e <-> ends tb l h st s go text e).
  { intros text. rewrite <- (C80_lines tb l h st s go text e B M Ha Hg).
    rewrite (proj1 (usb_read_spec st st text M ltac:(repeat split))). reflexivity. }
  destruct (readable_or_not zeros line Sc O) as [(t & vs & F & W & Fv)|N].
  - subst line. rewrite (same_read zeros t vs (ascii_of_nat 10) st Sc F Fv), R. split.
    + intros E. right. exists t, vs. tauto.
    + intros [[_ N]|(t' & vs' & F' & W' & Fv' & E)]; [destruct (N t vs F eq_refl Fv)|].
      assert (Eq : usb_read (string_of_list_ascii (map digit vs ++ [ascii_of_nat 10])) st = usb_read (string_of_list_ascii (map digit vs' ++ [ascii_of_nat 10])) st).
      { rewrite <- (same_read zeros t vs _ st Sc F Fv), <- (same_read zeros t' vs' _ st Sc F' Fv'). congruence. }
      apply R. rewrite Eq. apply R. exact E.
  - rewrite (unreadable zeros line st Sc O N). cbn [fst]. split; [intros [= <-]; left; auto|].
    intros [[-> _]|(t & vs & F & W & Fv & _)]; [reflexivity|destruct (N t vs F W Fv)].
Qed.
Print Assumptions C102_ends.

(** Without digits of other scripts the line is taken byte by byte, as C53, C80
    and C89 do. *)
Theorem C102_bytewise : forall zeros text st, scripts zeros -> octets text ->
  (forall t c z, Forall scalar t -> text = written t -> In c t -> In z zeros -> ~ (z <= c <= z + 9)) ->
  usb_read_bytes zeros (text ++ [10]) st = usb_read (decoded (text ++ [10])) st.
Proof. exact latin_read. Qed.
Print Assumptions C102_bytewise.

(** ** Examples *)

(** The digits zero of Unicode 14.0, without that of ASCII. *)
Definition zeros_14 : list Z :=
  [0x660; 0x6F0; 0x7C0; 0x966; 0x9E6; 0xA66; 0xAE6; 0xB66; 0xBE6; 0xC66; 0xCE6; 0xD66; 0xDE6; 0xE50; 0xED0; 0xF20;
   0x1040; 0x1090; 0x17E0; 0x1810; 0x1946; 0x19D0; 0x1A80; 0x1A90; 0x1B50; 0x1BB0; 0x1C40; 0x1C50; 0xA620; 0xA8D0;
   0xA900; 0xA9D0; 0xA9F0; 0xAA50; 0xABF0; 0xFF10; 0x104A0; 0x10D30; 0x11066; 0x110F0; 0x11136; 0x111D0; 0x112F0;
   0x11450; 0x114D0; 0x11650; 0x116C0; 0x11730; 0x118E0; 0x11950; 0x11C50; 0x11D50; 0x11DA0; 0x16A60; 0x16AC0;
   0x16B50; 0x1D7CE; 0x1D7D8; 0x1D7E2; 0x1D7EC; 0x1D7F6; 0x1E140; 0x1E2F0; 0x1E950; 0x1FBF0].
Definition apart_b (zeros : list Z) : bool :=
  forallb (fun z => 0x80 <=? z) zeros && forallb (fun y => forallb (fun z => (z <=? y) || (y + 10 <=? z)) zeros) zeros.
Lemma apart_scripts zeros : apart_b zeros = true -> scripts zeros.
Proof.
  unfold apart_b. intros H. apply andb_prop in H. destruct H as [H1 H2]. rewrite forallb_forall in H1, H2. split.
  - intros z I. specialize (H1 z I). lia.
  - intros y z Iy Iz L. specialize (H2 y Iy). rewrite forallb_forall in H2. specialize (H2 z Iz). lia.
Qed.
Example C102_zeros : scripts zeros_14.
Proof. apply apart_scripts. vm_compute. reflexivity. Qed.

(** The report of C24 written with Arabic digits where digits occur, the line
    feed replaced by a musical symbol of four bytes: taken like the ASCII one. *)
Definition arabic (c : ascii) : Z :=
  let n := Z.of_N (N_of_ascii c) in if (48 <=? n) && (n <=? 57) then n - 48 + 0x660 else n.
Definition arabic_line : list Z := map arabic (list_ascii_of_string (msg_str (ex_usb ex_frame))) ++ [0x1D11E].
Example C102_example :
  firstn 8 (written arabic_line) = [0xD9; 0xA0; 0xD9; 0xA1; 0xD9; 0xA1; 0xD9; 0xA3] /\
  utf8 (written arabic_line) = Ok arabic_line /\
  line_octects zeros_14 (written arabic_line) = Ok (ex_usb ex_frame) /\
  fst (usb_read_bytes zeros_14 (written arabic_line) (ex_st Usb_hid)) = fst (decode_msg CPlain (ex_usb ex_frame) (ex_st Usb_hid)) /\
  fst (usb_read (decoded (written arabic_line)) (ex_st Usb_hid)) = Err ValueError.
Proof. repeat (split; [vm_compute; reflexivity|]). vm_compute. reflexivity. Qed.
(** Overlong forms, surrogates and cut characters are no text; full-width
    letters and superscripts are no digits. *)
Example C102_refused_example :
  utf8 [0xC0; 0xB0] = Err ValueError /\ utf8 [0xED; 0xA0; 0x80] = Err ValueError /\ utf8 [0xE2; 0x82] = Err ValueError /\
  utf8 [0xF4; 0x90; 0x80; 0x80] = Err ValueError /\
  octects_of_points zeros_14 [0xFF11; 0xFF12] = Ok [0x12] /\ octects_of_points zeros_14 [0xFF21; 0xFF22] = Err ValueError /\
  octects_of_points zeros_14 [0xB2; 0xB3] = Err ValueError.
Proof. repeat (split; [vm_compute; reflexivity|]). vm_compute. reflexivity. Qed.
