(** Proofs for C79 and C80. *)
From Coq Require Import String Ascii ZArith NArith List Bool Lia ZifyBool.
From Verif Require Import Py Base Msg Address Dpt Tables LData Inet State Encode Decode Client.
From Verif Require Import SpecMsg SpecTables SpecWire SpecDecode SpecClient SpecSystem.
From Verif Require Import MsgProofs TablesProofs AssocProofs EncodeProofs DecodeProofs SimProofs IpProofs ClientProofs Props_Decode SpecFail FailProofs SystemProofs SpecBlock.
Import ListNotations.
Open Scope Z_scope.

(** ** The meaning of a telegram *)
Lemma telegram_harm tb l h s go cemi e :
  e = IndexError /\ cut_cemi s cemi \/
  (exists k t, cemi_telegram cemi = Some (k, t) /\ telegram_failure tb l h s go t e) <-> harmful tb l h s go cemi e.
Proof.
  split.
  - intros [[-> C]|(k & t & T & G & L & [svc S] & [[-> V]|(-> & p & rest & V & U)])].
    + apply Harm_cut. exact C.
    + exact (Harm_unassociated tb l h s go cemi k t svc T G L S V).
    + exact (Harm_display tb l h s go cemi k t svc p rest T G L S V U).
  - intros []; [left; auto| |]; right; exists k, t; (split; [assumption|]); (split; [assumption|]); (split; [assumption|]);
      (split; [eauto|]); [left|right]; eauto.
Qed.
Lemma meaning_error tb l h st s go cemi e : built tb l h s -> st_medium st = Knxnet_ip -> st_assoc st = Some s -> st_gobj st = Some go ->
  octets cemi -> (meaning st cemi = Err e <-> harmful tb l h s go cemi e).
Proof.
  intros B M Ha Hg O. rewrite <- telegram_harm, <- (cemi_error tb l h st s go cemi e B Ha Hg O).
  unfold meaning. rewrite decode_ip by exact M.
  rewrite (proj2 (tunnelled_some _ _ cemi (st_set_remote 0 st) (request_octets 0 0 cemi O) (request_tunnelled 0 0 cemi))).
  change (st_remote (st_set_remote 0 st) =? 0 mod 256) with true. cbv iota. cbn [fst].
  assert (A0 : st_assoc st <> None) by congruence. assert (G0 : st_gobj st <> None) by congruence.
  rewrite (msg_code_tables cemi st (st_set_remote 0 st)) by (assumption || reflexivity).
  pose proof (cemi_bus cemi st O A0 G0) as X.
  destruct (fst (d_msg_code cemi st)) as [[r| |r]|e']; cbn; try contradiction; split; intros E; congruence.
Qed.
Lemma harmless_meaning tb l h st s go cemi : built tb l h s -> st_medium st = Knxnet_ip -> st_assoc st = Some s -> st_gobj st = Some go ->
  octets cemi -> (harmless tb l h s go cemi <-> exists m, meaning st cemi = Ok m).
Proof.
  intros B M Ha Hg O. pose proof (fun e => meaning_error tb l h st s go cemi e B M Ha Hg O) as X. split.
  - intros N. destruct (meaning st cemi) as [m|e]; [eauto|]. destruct (N e). apply X. reflexivity.
  - intros [m E] e Hm. apply X in Hm. congruence.
Qed.

(** ** The tunnel *)
Lemma taken_step_bound x a h n e s0 frame : inb a -> a_k a <= n -> meaning s0 (frame n) = Err e -> takes s0 frame a h -> a_k (astep x a h) <= n.
Proof.
  intros I K He T. destruct h as [| | | |m|m|m|m]; unfold astep; cbn; try exact K.
  - destruct (a_down a) as [|[i|j] q] eqn:Eq; try exact K.
    destruct (i mod 256 =? a_k a mod 256) eqn:E1; [|split_if; exact K].
    destruct (T eq_refl i q Eq ltac:(lia)) as [l Hl]. destruct I. rewrite Eq in i_dreq. pose proof (Forall_inv i_dreq) as Bi. cbn in Bi.
    assert (i = a_k a) by lia. subst i. cbn. assert (a_k a <> n) by congruence. lia.
  - destruct (a_up a) as [|[p j cemi|v|d] q]; try exact K. split_if; [exact K|]. split_if; exact K.
Qed.
Lemma blocked_run ip ch s0 frame n e hs : 0 <= ch < 256 -> fits s0 -> sendable frame -> meaning s0 (frame n) = Err e ->
  forall s a, sim ip ch s0 frame s a -> inb a -> a_k a <= n ->
  exists a', sim ip ch s0 frame (sy_run frame s hs) a' /\ inb a' /\ a_k a' <= n.
Proof.
  intros Hch F0 Mf He. induction hs as [|h hs IH]; intros s a S Ia Ka; [exists a; auto|].
  destruct (sim_step ip ch s0 frame s a h Hch F0 Mf S) as (x & h' & _ & Eh & S1).
  apply (IH _ (astep x a h') S1); [apply inb_step; exact Ia|].
  destruct Eh as [[-> T]|[_ ->]]; [exact (taken_step_bound x a h n e s0 frame Ia Ka He T)|exact Ka].
Qed.

(** ** Lines *)
Lemma length_ascii s : length (list_ascii_of_string s) = String.length s.
Proof. induction s; cbn; congruence. Qed.
Lemma all_hex_append a b : all_hex (String.append a b) <-> all_hex a /\ all_hex b.
Proof. unfold all_hex. rewrite list_ascii_app, Forall_app. reflexivity. Qed.
Lemma text_length m : length (list_ascii_of_string (text_of m)) = (2 * length m)%nat.
Proof.
  unfold text_of. rewrite list_ascii_of_string_of_list_ascii. induction m as [|o m IH]; [reflexivity|].
  cbn [flat_map]. rewrite app_length, IH. cbn. lia.
Qed.
Lemma upper_length s : length (list_ascii_of_string (upper s)) = String.length s.
Proof. unfold upper. rewrite list_ascii_of_string_of_list_ascii, map_length. apply length_ascii. Qed.
Lemma hex_dec s : {all_hex s} + {~ all_hex s}.
Proof. apply Forall_dec. intros c. unfold is_hex. destruct (in_dec ascii_dec c digits); [left; auto|]. destruct (in_dec ascii_dec c small_letters); [left; auto|right; tauto]. Qed.
Lemma not_hex s : ~ all_hex s -> make_from_str s = Err ValueError.
Proof.
  intros N. apply make_bad. apply Exists_exists. unfold all_hex in N. induction (list_ascii_of_string s) as [|c l IH]; [destruct N; constructor|].
  destruct (hex_dec (String c EmptyString)) as [H|H].
  - apply Forall_inv in H. destruct IH as (d & I & D); [|exists d; split; [right; exact I|exact D]]. intros F. apply N. constructor; assumption.
  - exists c. split; [left; reflexivity|]. intros C. apply H. constructor; [exact C|constructor].
Qed.
Lemma hex_make s : all_hex s -> exists m, make_from_str s = Ok m /\ spells s m.
Proof.
  intros H. destruct (Nat.even (String.length s)) eqn:Ev.
  - destruct (make_hex_even s H Ev) as (m' & E & O & U). exists m'. split; [exact E|]. split; [exact O|]. exists s, EmptyString.
    split; [clear; induction s; cbn; congruence|]. split; [exact H|]. split; [rewrite <- U; apply msg_str_text; exact O|cbn; lia].
  - assert (L : exists d c, s = String.append d (String c EmptyString)).
    { clear -Ev. induction s as [s IH] using (well_founded_induction (well_founded_ltof _ String.length)).
      destruct s as [|a [|b s]]; [discriminate Ev|exists EmptyString, a; reflexivity|].
      destruct (IH s) as (d & c & E); [unfold ltof; cbn; lia|exact Ev|]. exists (String a (String b d)), c. cbn. rewrite <- E. reflexivity. }
    destruct L as (d & c & ->). apply all_hex_append in H as HH. destruct HH as [Hd Hc].
    assert (Ed : Nat.even (String.length d) = true).
    { rewrite <- length_ascii, list_ascii_app, app_length, length_ascii in Ev. cbn [list_ascii_of_string length] in Ev.
      rewrite Nat.add_1_r, Nat.even_succ, <- Nat.negb_even in Ev. destruct (Nat.even (String.length d)); [reflexivity|discriminate Ev]. }
    destruct (make_hex_even d Hd Ed) as (m' & E & O & U). exists m'. split.
    + rewrite make_hex_odd; try assumption. exact (Forall_inv Hc).
    + split; [exact O|]. exists d, (String c EmptyString). split; [reflexivity|]. split; [exact H|]. split; [rewrite <- U; apply msg_str_text; exact O|cbn; lia].
Qed.
Lemma spells_make s m : all_hex s -> (make_from_str s = Ok m <-> spells s m).
Proof.
  intros H. split.
  - intros E. destruct (hex_make s H) as (m' & E' & Sp). rewrite E' in E. injection E as <-. exact Sp.
  - intros (O & d & r & -> & _ & U & Lr). apply all_hex_append in H. destruct H as [Hd Hr].
    assert (Ev : Nat.even (String.length d) = true).
    { rewrite <- (upper_length d), U, text_length. apply Nat.even_spec. exists (length m). reflexivity. }
    destruct (make_hex_even d Hd Ev) as (m' & E & O' & U'). rewrite U in U'. rewrite <- (msg_str_text m O) in U'.
    assert (m' = m) as ->. { pose proof (make_of_str m' O') as A1. rewrite U', (make_of_str m O) in A1. congruence. }
    destruct r as [|c [|c2 r]]; [|rewrite make_hex_odd; [exact E|assumption..|exact (Forall_inv Hr)]|cbn in Lr; lia].
    assert (String.append d EmptyString = d) as -> by (clear; induction d; cbn; congruence). exact E.
Qed.

(** ** What a report gives *)
Lemma group_displayable k svc t p : displayable (group_message k svc t (fst p) (mkdpt (snd p) (raw (snd p) t))) = negb (undisplayable (snd p) (raw (snd p) t)).
Proof. destruct k, svc; reflexivity. Qed.
Lemma group_messages_display k svc t r : forallb displayable (group_messages k svc t r) = true <->
  forall p, In p r -> undisplayable (snd p) (raw (snd p) t) = false.
Proof.
  unfold group_messages. rewrite forallb_forall. split.
  - intros H p I. specialize (H _ (in_map (fun p => group_message k svc t (fst p) (mkdpt (snd p) (raw (snd p) t))) r p I)). cbv beta in H. rewrite group_displayable in H. destruct (undisplayable _ _); [discriminate H|reflexivity].
  - intros H x I. apply in_map_iff in I. destruct I as (p & <- & I). rewrite group_displayable, (H p I). reflexivity.
Qed.
(** A decoded report with a message that cannot be displayed. *)
Lemma report_display tb l h st s go m r : built tb l h s -> st_medium st = Usb_hid -> st_assoc st = Some s -> st_gobj st = Some go -> octets m ->
  fst (decode_msg CPlain m st) = Ok (RList r) ->
  (forallb displayable r = false <->
   exists k t svc p, on_bus st m = Some (k, t) /\ group_telegram t /\ In (t_dst t) (vals (at_addrs (as_table s))) /\
   group_service t = Some svc /\ In p (receivers tb l h (t_dst t) go) /\ undisplayable (snd p) (raw (snd p) t) = true).
Proof.
  intros B M Ha Hg O E.
  assert (D : decode_msg CPlain m st = d_report_identifier m st) by (unfold decode_msg; unfold mbind at 1, mget at 1; rewrite M; reflexivity).
  rewrite D in E. unfold on_bus. rewrite M.
  assert (Z0 : forall P : Prop, (forallb displayable r = true) -> (P -> False) -> (forallb displayable r = false <-> P)) by (intros P T N; rewrite T; split; [discriminate|tauto]).
  destruct (usb_cemi m) as [cemi|] eqn:C.
  - destruct (usb_some m cemi st O C) as [Oc X]. rewrite X in E. clear X D.
    destruct (cemi_telegram cemi) as [[k t]|] eqn:T.
    + destruct (msg_code_some cemi st s go k t Ha Hg Oc T) as [P X]. rewrite X in E. cbn [fst] in E. clear X. unfold telegram_outcome in E.
      destruct (group_addressed t) eqn:G.
      * destruct (t_dst t =? 0) eqn:D0.
        { injection E as <-. apply Z0; [reflexivity|]. intros (k' & t' & svc & p & Et & (_ & Nz & _) & _). assert (t' = t) as -> by congruence. lia. }
        destruct (plain t) eqn:Pl; [|discriminate E]. unfold group_outcome in E.
        destruct (listed s (t_dst t)) eqn:Li.
        2: { cbn [rbind] in E. injection E as <-. apply Z0; [reflexivity|]. intros (k' & t' & svc & p & Et & _ & I & _). assert (t' = t) as -> by congruence. apply listed_In in I. congruence. }
        apply listed_In in Li. destruct (group_service t) as [svc|] eqn:Sv.
        2: { cbn [rbind] in E. injection E as <-. apply Z0; [reflexivity|]. intros (k' & t' & svc & p & Et & _ & _ & I & _). assert (t' = t) as -> by congruence. congruence. }
        pose proof (reached_balance tb l h s go (t_dst t) B (or_introl Li)) as X. destruct (reached s go (t_dst t)) as [q|e]; [|discriminate E].
        destruct X as [-> _]. cbn [rbind] in E. change (filter _ go) with (receivers tb l h (t_dst t) go) in E.
        destruct (first_undisplayable t (receivers tb l h (t_dst t) go)); [discriminate E|]. cbn [rbind] in E. injection E as <-.
        pose proof (group_messages_display k svc t (receivers tb l h (t_dst t) go)) as GD. split.
        -- intros F. destruct (existsb (fun p => undisplayable (snd p) (raw (snd p) t)) (receivers tb l h (t_dst t) go)) eqn:Ex.
           ++ apply existsb_exists in Ex. destruct Ex as (p & Ip & Up). exists k, t, svc, p. repeat (split; [first [assumption | reflexivity | repeat split; (assumption || lia)]|]). exact Up.
           ++ exfalso. rewrite (proj2 GD) in F; [discriminate F|]. intros p Ip. destruct (undisplayable (snd p) (raw (snd p) t)) eqn:Up; [|reflexivity].
              assert (existsb (fun p => undisplayable (snd p) (raw (snd p) t)) (receivers tb l h (t_dst t) go) = true) by (apply existsb_exists; eauto). congruence.
        -- intros (k' & t' & svc' & p & Et & _ & _ & _ & Ip & Up). assert (t' = t) as -> by congruence.
           destruct (forallb displayable _) eqn:F; [|reflexivity]. rewrite (proj1 GD eq_refl p Ip) in Up. discriminate Up.
      * apply Z0; [|intros (k' & t' & svc & p & Et & (Gt & _) & _); assert (t' = t) as -> by congruence; congruence].
        destruct (plain t && individual_accepts s k t); [|injection E as <-; reflexivity]. unfold property_outcome in E.
        destruct (property_service t) as [svc|]; [|injection E as <-; reflexivity]. destruct (4 <=? zlen (t_data t)); [|discriminate E].
        cbn [rbind] in E. injection E as <-. destruct k, svc; reflexivity.
    + destruct (msg_code_none cemi st T) as [X|X]; rewrite X in E; [|discriminate E]. injection E as <-.
      apply Z0; [reflexivity|]. intros (k' & t' & svc & p & Et & _). discriminate Et.
  - destruct (usb_none m st O C) as [_ Q]. rewrite E in Q.
    apply Z0; [|intros (k' & t' & svc & p & Et & _); discriminate Et].
    apply forallb_forall. intros x I. rewrite Forall_forall in Q. specialize (Q x I). destruct x; try reflexivity; contradiction.
Qed.
Lemma group_reported tb l h st s go c m k t svc : built tb l h s -> received st s go c m k t -> group_telegram t ->
  In (t_dst t) (vals (at_addrs (as_table s))) -> group_service t = Some svc ->
  (exists r, fst (decode_msg c m st) = Ok (RList r)) \/ exists e, fst (decode_msg c m st) = Err e.
Proof.
  intros B R T L S. rewrite (group_decode st s go c m k t R T). destruct (group_outcome s go k t); [left|right; eauto].
  unfold reported. destruct (st_medium st); eauto.
Qed.
Lemma line_error tb l h st s go line e : built tb l h s -> st_medium st = Usb_hid -> st_assoc st = Some s -> st_gobj st = Some go ->
  (line_result st line = Err e <-> ends tb l h st s go line e).
Proof.
  intros B M Ha Hg. unfold line_result. destruct (hex_dec (line_text line)) as [Hx|Hx].
  2: { rewrite (not_hex _ Hx). cbn [rbind]. split; [intros E; injection E as <-; apply Ends_text; exact Hx|].
       intros []; [reflexivity| |]; destruct H as (_ & ? & ? & _ & A & _); contradiction. }
  destruct (hex_make _ Hx) as (m & Em & Sm). rewrite Em. cbn [rbind].
  assert (Un : forall m', spells (line_text line) m' -> m' = m) by (intros m' X; apply (spells_make _ m' Hx) in X; congruence).
  pose proof (proj1 Sm) as Om.
  pose proof (fun e => decode_failure tb l h st s go CPlain m e B Ha Hg Om (or_introl M)) as DF.
  destruct (fst (decode_msg CPlain m st)) as [data|e1] eqn:E1; cbn [rbind].
  - assert (NF : forall e', ~ failure tb l h st s go m e') by (intros e' X; apply DF in X; discriminate X).
    assert (LI : ends tb l h st s go line e <-> e = ValueError /\ exists k t svc p, on_bus st m = Some (k, t) /\ group_telegram t /\
      In (t_dst t) (vals (at_addrs (as_table s))) /\ group_service t = Some svc /\ In p (receivers tb l h (t_dst t) go) /\ undisplayable (snd p) (raw (snd p) t) = true).
    { split.
      - intros []; [contradiction| |].
        + match goal with H : spells _ m0 |- _ => apply Un in H; subst m0 end. match goal with H : failure _ _ _ _ _ _ m _ |- _ => destruct (NF _ H) end.
        + match goal with H : spells _ m0 |- _ => apply Un in H; subst m0 end. split; [reflexivity|]. exists k, t, svc, p. auto 10.
      - intros (-> & k & t & svc & p & A1 & A2 & A3 & A4 & A5 & A6). exact (Ends_display tb l h st s go line m k t svc p Sm A1 A2 A3 A4 A5 A6). }
    rewrite LI. clear LI. destruct data as [r| |r].
    + pose proof (report_display tb l h st s go m r B M Ha Hg Om E1) as RD. rewrite <- RD.
      destruct (forallb displayable r); split; try discriminate; try (intros [_ X]; discriminate X); [intros X; injection X as <-; auto|intros [-> _]; reflexivity].
    + split; [discriminate|]. intros (_ & k & t & svc & p & A1 & A2 & A3 & A4 & A5 & A6). exfalso.
      destruct (group_reported tb l h st s go CPlain m k t svc B ltac:(repeat split; auto; left; exact M) A2 A3 A4) as [[r X]|[e' X]]; congruence.
    + split; [discriminate|]. intros (_ & k & t & svc & p & A1 & A2 & A3 & A4 & A5 & A6). exfalso.
      destruct (group_reported tb l h st s go CPlain m k t svc B ltac:(repeat split; auto; left; exact M) A2 A3 A4) as [[r' X]|[e' X]]; congruence.
  - assert (F1 : failure tb l h st s go m e1) by (apply DF; reflexivity). split.
    + intros X. injection X as <-. exact (Ends_report tb l h st s go line m e1 Sm F1).
    + intros []; [contradiction| |].
      * match goal with H : spells _ m0 |- _ => apply Un in H; subst m0 end. match goal with H : failure _ _ _ _ _ _ m _ |- _ => apply DF in H; congruence end.
      * match goal with H : spells _ m0 |- _ => apply Un in H; subst m0 end. f_equal.
        assert (X : exists v, 0 < balance tb l h v (t_dst t)).
        { match goal with H : In p _ |- _ => unfold receivers in H; apply filter_In in H; destruct H as [_ H]; exists (asap_value (fst p)); lia end. }
        destruct (receivers tb l h (t_dst t) go) as [|p0 rest] eqn:R; [contradiction|].
        destruct (undisplayable (snd p0) (raw (snd p0) t)) eqn:U0.
        -- match goal with H : on_bus st m = _, H1 : group_telegram t, H2 : In (t_dst t) _, H3 : group_service t = _ |- _ =>
             pose proof (proj2 (DF ValueError) (Fails_display tb l h st s go m k t svc p0 rest H H1 H2 H3 R U0)) end. congruence.
        -- exfalso. match goal with H : on_bus st m = _, H1 : group_telegram t, H2 : In (t_dst t) _, H3 : group_service t = _ |- _ =>
             pose proof (group_decode_listed tb l h st s go CPlain m k t svc B (conj Ha (conj Hg (conj Om (conj (or_introl M) H)))) H1 H2 H3 X) as Y end.
           rewrite R in Y. cbn [first_displayable] in Y. specialize (Y U0). congruence.
Qed.
