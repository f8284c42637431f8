(** Proofs for C81: the items of a command line and what getopt_long makes of them. *)
From Coq Require Import String Ascii ZArith List Bool Lia.
From Verif Require Import DaemonArgs SpecArgs.
Import ListNotations.
Local Open Scope string_scope.

(** ** Prefixes and abbreviations *)
Lemma begins_app p s : begins p s = true <-> exists t, s = p ++ t.
Proof.
  revert s. induction p as [|c p IH]; intros s; cbn.
  - split; [intros _; exists s; reflexivity|reflexivity].
  - destruct s as [|d s]; [split; [discriminate|intros [t H]; discriminate]|].
    rewrite andb_true_iff, Ascii.eqb_eq, IH. split.
    + intros [-> [t ->]]. exists t. reflexivity.
    + intros [t H]. injection H as -> ->. eauto.
Qed.
Definition code (o : string) : option (bool * ascii) :=
  match find (fun x => String.eqb (fst (fst x)) o) longopts with Some (_, b, c) => Some (b, c) | None => None end.
Lemma filter_one {A} (f : A -> bool) l o : NoDup l ->
  (filter f l = [o] <-> In o l /\ forall x, In x l -> (f x = true <-> x = o)).
Proof.
  induction l as [|a l IH]; intros N; cbn.
  - split; [discriminate|intros [[] _]].
  - inversion_clear N as [|? ? Na Nl]. destruct (f a) eqn:E.
    + split.
      * intros H. injection H as -> H. split; [left; reflexivity|]. intros x [<-|I]; [tauto|].
        split; [|intros ->; contradiction]. intros Fx. assert (In x (filter f l)) by (apply filter_In; tauto). rewrite H in *. contradiction.
      * intros [[->|I] U].
        -- f_equal. destruct (filter f l) as [|y r] eqn:Fe; [reflexivity|]. assert (In y (filter f l)) as Iy by (rewrite Fe; left; reflexivity).
           apply filter_In in Iy. destruct Iy as [Iy Fy]. apply U in Fy; [subst; contradiction|right; exact Iy].
        -- assert (a = o) by (apply U; [left; reflexivity|exact E]). subst. contradiction.
    + rewrite IH by exact Nl. split.
      * intros [I U]. split; [right; exact I|]. intros x [<-|Ix]; [|apply U, Ix]. split; [congruence|intros ->; contradiction].
      * intros [[->|I] U]; [assert (f o = true) by (apply U; [left; reflexivity|reflexivity]); congruence|]. split; [exact I|]. intros x Ix. apply U. right. exact Ix.
Qed.
Lemma option_names_nodup : NoDup option_names.
Proof. repeat constructor; cbn; intuition discriminate. Qed.
Lemma abbreviates_filter n o : abbreviates n o <-> filter (begins n) option_names = [o].
Proof.
  rewrite (filter_one (begins n) option_names o option_names_nodup). unfold abbreviates.
  split; intros [I U]; (split; [exact I|]); intros x Ix; specialize (U x Ix); rewrite begins_app in *; exact U.
Qed.
Lemma filter_map {A B} (f : B -> bool) (g : A -> B) l : filter f (map g l) = map g (filter (fun x => f (g x)) l).
Proof. induction l as [|a l IH]; cbn; [reflexivity|]. destruct (f (g a)); cbn; rewrite IH; reflexivity. Qed.
Lemma find_long_spec n : match find_long n with
  | Some (o, b, c) => abbreviates n o /\ code o = Some (b, c)
  | None => forall o, ~ abbreviates n o
  end.
Proof.
  assert (M : option_names = map (fun x => fst (fst x)) longopts) by reflexivity.
  unfold find_long. destruct (find _ longopts) as [[[o b] c]|] eqn:F.
  - assert (o = n) by (apply find_some in F; apply String.eqb_eq; exact (proj2 F)). subst o. split.
    + rewrite abbreviates_filter. apply find_some in F. destruct F as [F _]. cbn in F.
      repeat (destruct F as [F|F]; [injection F as <- <- <-; reflexivity|]). contradiction.
    + unfold code. rewrite F. reflexivity.
  - destruct (filter _ longopts) as [|[[o b] c] [|? ?]] eqn:Fi.
    + intros o. rewrite abbreviates_filter, M, filter_map, Fi. discriminate.
    + split; [rewrite abbreviates_filter, M, filter_map, Fi; reflexivity|].
      assert (In (o, b, c) longopts) as I by (apply (filter_In (fun x => begins n (fst (fst x)))); rewrite Fi; left; reflexivity). cbn in I.
      repeat (destruct I as [I|I]; [injection I as <- <- <-; reflexivity|]). contradiction.
    + intros o'. rewrite abbreviates_filter, M, filter_map, Fi. discriminate.
Qed.
Lemma abbreviates_unique n o o' : abbreviates n o -> abbreviates n o' -> o = o'.
Proof. rewrite !abbreviates_filter. congruence. Qed.
Lemma abbreviates_find n o : abbreviates n o -> exists b c, find_long n = Some (o, b, c) /\ code o = Some (b, c).
Proof.
  intros A. pose proof (find_long_spec n) as S. destruct (find_long n) as [[[o' b] c]|]; [|destruct (S o A)].
  destruct S as [A' C]. rewrite <- (abbreviates_unique n o o' A A') in *. eauto.
Qed.
Lemma string_app_nil s : s ++ "" = s.
Proof. induction s; cbn; congruence. Qed.
Lemma names_plain o : In o option_names -> without_equals o.
Proof. intros I. cbn in I. repeat (destruct I as [<-|I]; [unfold without_equals; cbn; intuition discriminate|]). contradiction. Qed.
Lemma list_app a b : list_ascii_of_string (a ++ b) = (list_ascii_of_string a ++ list_ascii_of_string b)%list.
Proof. induction a; cbn; congruence. Qed.
Lemma abbreviates_plain n o : abbreviates n o -> without_equals n.
Proof.
  intros [I U]. destruct (proj2 (U o I) eq_refl) as [t E]. pose proof (names_plain o I) as P. rewrite E in P. unfold without_equals in *. rewrite list_app in P.
  intros J. apply P, in_or_app. left. exact J.
Qed.
Lemma abbreviates_nonempty n o : abbreviates n o -> n <> "".
Proof. intros A ->. rewrite abbreviates_filter in A. discriminate. Qed.
Lemma split_plain n : without_equals n -> split_value n = (n, None).
Proof.
  induction n as [|c n IH]; [reflexivity|]. intros W. cbn. destruct (Ascii.eqb_spec c "="); [destruct W; left; congruence|].
  rewrite IH; [reflexivity|]. intros I. apply W. right. exact I.
Qed.
Lemma split_joined n v : without_equals n -> split_value (n ++ "=" ++ v) = (n, Some v).
Proof.
  induction n as [|c n IH]; [reflexivity|]. intros W. cbn. destruct (Ascii.eqb_spec c "="); [destruct W; left; congruence|].
  cbn in IH. rewrite IH; [reflexivity|]. intros I. apply W. right. exact I.
Qed.
Lemma split_value_spec t : let '(n, v) := split_value t in
  without_equals n /\ t = match v with None => n | Some x => n ++ "=" ++ x end.
Proof.
  induction t as [|c t IH]; cbn; [split; [intros []|reflexivity]|]. destruct (Ascii.eqb_spec c "=") as [->|N].
  - split; [intros []|reflexivity].
  - destruct (split_value t) as [n v]. destruct IH as [W E]. split; [intros [X|X]; [congruence|exact (W X)]|].
    rewrite E. destruct v; reflexivity.
Qed.

(** ** The items as a function of the arguments *)
Fixpoint items_of (args : list string) : list item :=
  match args with
  | [] => []
  | a :: r =>
      match shape_of a with
      | SStop => []
      | SWord => Word a :: items_of r
      | SLetters l => Letters (list_ascii_of_string l) :: items_of r
      | SLong t =>
          let '(n, v) := split_value t in
          match find_long n with
          | None => Wrong t :: items_of r
          | Some (_, false, _) => match v with Some _ => Wrong t :: items_of r | None => Help :: items_of r end
          | Some (o, true, _) =>
              match v with
              | Some x => Named o x :: items_of r
              | None => match r with [] => [Wrong t] | x :: r' => Named o x :: items_of r' end
              end
          end
      end
  end.
Lemma shape_spec a : match shape_of a with
  | SStop => a = "--"
  | SWord => forall t, a = "-" ++ t -> t = ""
  | SLetters l => exists c r, l = String c r /\ c <> "-"%char /\ a = "-" ++ l
  | SLong t => t <> "" /\ a = "--" ++ t
  end.
Proof.
  destruct a as [|c a]; cbn; [discriminate|]. destruct (Ascii.eqb_spec c "-") as [->|N].
  - destruct a as [|d t]; [intros t H; injection H; auto|]. destruct (Ascii.eqb_spec d "-") as [->|N].
    + destruct t; [reflexivity|split; [discriminate|reflexivity]].
    + exists d, t. auto.
  - intros t H. injection H as H _. contradiction.
Qed.
Lemma shape_word w : (forall t, w = "-" ++ t -> t = "") -> shape_of w = SWord.
Proof.
  intros H. pose proof (shape_spec w) as X. destruct (shape_of w); [|destruct X as [N ->]|destruct X as (c & r & -> & N & ->)|reflexivity].
  - subst. discriminate (H "-" eq_refl).
  - specialize (H (String "-" t) eq_refl). discriminate.
  - specialize (H (String c r) eq_refl). discriminate.
Qed.
Lemma shape_letters c l : c <> "-"%char -> shape_of ("-" ++ String c l) = SLetters (String c l).
Proof. intros N. cbn. destruct (Ascii.eqb_spec c "-"); [contradiction|reflexivity]. Qed.
Lemma shape_long t : t <> "" -> shape_of ("--" ++ t) = SLong t.
Proof. intros N. cbn. destruct t; [contradiction|reflexivity]. Qed.
Lemma app_nonempty n m : n <> "" -> n ++ m <> "".
Proof. destruct n; [contradiction|discriminate]. Qed.
Lemma eq_nonempty n v : n ++ "=" ++ v <> "".
Proof. destruct n; discriminate. Qed.
Lemma code_help b c : code "help" = Some (b, c) -> b = false /\ c = "h"%char.
Proof. intros H. injection H as <- <-. auto. Qed.
Lemma code_value o b c : In o option_names -> o <> "help" -> code o = Some (b, c) -> b = true.
Proof. intros I N H. cbn in I. repeat (destruct I as [<-|I]; [first [contradiction|injection H as <- <-; reflexivity]|]). contradiction. Qed.
Lemma items_unique args is : command_line args is -> is = items_of args.
Proof.
  induction 1 as [|r|w r is W _ IH|c l r is N _ IH|n r is A _ IH|n o v r is A N _ IH|n o v r is A N _ IH|n t r is W A T _ IH|n v r is A _ IH|n o A N]; cbn [items_of].
  - reflexivity.
  - reflexivity.
  - rewrite (shape_word w W), <- IH. reflexivity.
  - rewrite (shape_letters c l N), <- IH. reflexivity.
  - rewrite (shape_long n (abbreviates_nonempty _ _ A)), (split_plain n (abbreviates_plain _ _ A)).
    destruct (abbreviates_find _ _ A) as (b & c & -> & C). destruct (code_help b c C) as [-> ->]. rewrite <- IH. reflexivity.
  - rewrite (shape_long (n ++ "=" ++ v) (eq_nonempty n v)), (split_joined n v (abbreviates_plain _ _ A)).
    destruct (abbreviates_find _ _ A) as (b & c & -> & C). rewrite (code_value o b c (proj1 A) N C), <- IH. reflexivity.
  - rewrite (shape_long n (abbreviates_nonempty _ _ A)), (split_plain n (abbreviates_plain _ _ A)).
    destruct (abbreviates_find _ _ A) as (b & c & -> & C). rewrite (code_value o b c (proj1 A) N C), <- IH. reflexivity.
  - assert (t <> "") as Nt by (destruct T as [[-> Nn]|[v ->]]; [exact Nn|apply eq_nonempty]). rewrite (shape_long t Nt).
    assert (exists v, split_value t = (n, v)) as [v ->] by (destruct T as [[-> _]|[v ->]]; [rewrite split_plain by exact W|rewrite split_joined by exact W]; eauto).
    pose proof (find_long_spec n) as S. destruct (find_long n) as [[[o b] c]|]; [destruct (A o (proj1 S))|]. rewrite <- IH. reflexivity.
  - rewrite (shape_long (n ++ "=" ++ v) (eq_nonempty n v)), (split_joined n v (abbreviates_plain _ _ A)).
    destruct (abbreviates_find _ _ A) as (b & c & -> & C). destruct (code_help b c C) as [-> ->]. rewrite <- IH. reflexivity.
  - rewrite (shape_long n (abbreviates_nonempty _ _ A)), (split_plain n (abbreviates_plain _ _ A)).
    destruct (abbreviates_find _ _ A) as (b & c & -> & C). rewrite (code_value o b c (proj1 A) N C). reflexivity.
Qed.
Lemma items_read : forall args, command_line args (items_of args).
Proof.
  assert (X : forall k args, (length args <= k)%nat -> command_line args (items_of args)); [|intros args; exact (X _ args (le_n _))].
  induction k as [|k IH]; intros [|a r] L; cbn [length] in L; try lia; try constructor.
  cbn [items_of]. pose proof (shape_spec a) as Sh. destruct (shape_of a) as [|t|l|].
  - subst. constructor.
  - destruct Sh as [Nt ->]. pose proof (split_value_spec t) as Sp. destruct (split_value t) as [n v]. destruct Sp as [W Et].
    pose proof (find_long_spec n) as F. destruct (find_long n) as [[[o b] c]|].
    + destruct F as [A C]. destruct b.
      * assert (o <> "help") as No by (intros ->; discriminate). destruct v as [x|]; subst t; [apply Cl_joined; [exact A|exact No|apply IH; lia]|].
        destruct r as [|x r']; [exact (Cl_no_value n o A No)|]. apply Cl_next; [exact A|exact No|apply IH; cbn [length] in L; lia].
      * assert (o = "help") as -> by (destruct A as [I _]; cbn in I; repeat (destruct I as [<-|I]; [first [reflexivity|discriminate]|]); contradiction).
        destruct v as [x|]; subst t; [apply Cl_help_value|apply Cl_help]; try exact A; apply IH; lia.
    + apply (Cl_unknown n); [exact W|exact F| |apply IH; lia]. destruct v as [x|]; [right; exists x; exact Et|left; subst; auto].
  - destruct Sh as (c & l' & -> & N & ->). cbn [list_ascii_of_string]. constructor; [exact N|apply IH; lia].
  - apply Cl_word; [exact Sh|apply IH; lia].
Qed.

(** ** What the items do *)
Definition helps (i : item) : bool :=
  match i with Help => true | Letters l => existsb (Ascii.eqb "h") l | _ => false end.
Lemma helps_spec i : helps i = true <-> asks_help i.
Proof.
  destruct i as [w|l| |o v|t]; cbn; try (split; [discriminate|tauto]); [|tauto].
  rewrite existsb_exists. split; [intros (x & I & E); apply Ascii.eqb_eq in E; subst; exact I|intros I; exists "h"%char; split; [exact I|apply Ascii.eqb_refl]].
Qed.
Definition dev_of (i : item) (d : option string) : option string :=
  match i with
  | Named o v => if String.eqb o "dev-hidraw" then Some v else d
  | Letters l => if existsb (Ascii.eqb "d") l then None else d
  | _ => d
  end.
Lemma dev_of_sets i d d' : sets_device i d' -> dev_of i d = d'.
Proof.
  destruct i as [w|l| |o v|t]; cbn; try contradiction.
  - intros [I ->]. replace (existsb (Ascii.eqb "d") l) with true; [reflexivity|]. symmetry. apply existsb_exists. exists "d"%char. split; [exact I|apply Ascii.eqb_refl].
  - intros [-> ->]. reflexivity.
Qed.
Lemma dev_of_other i d : (forall d', ~ sets_device i d') -> dev_of i d = d.
Proof.
  intros N. destruct i as [w|l| |o v|t]; cbn; try reflexivity.
  - destruct (existsb (Ascii.eqb "d") l) eqn:E; [|reflexivity]. apply existsb_exists in E. destruct E as (x & I & E). apply Ascii.eqb_eq in E. subst. destruct (N None). cbn. auto.
  - destruct (String.eqb_spec o "dev-hidraw") as [->|]; [|reflexivity]. destruct (N (Some v)). cbn. auto.
Qed.
Lemma dev_of_dec i : (exists d, sets_device i d) \/ (forall d, ~ sets_device i d).
Proof.
  destruct i as [w|l| |o v|t]; cbn; try (right; tauto).
  - destruct (in_dec ascii_dec "d"%char l); [left; eauto|right; tauto].
  - destruct (string_dec o "dev-hidraw"); [left; eauto|right; tauto].
Qed.
Lemma letters_none l s : existsb (Ascii.eqb "h") (list_ascii_of_string l) = true -> letters_step l s = None.
Proof.
  revert s. induction l as [|c l IH]; intros s; [discriminate|]. cbn [list_ascii_of_string existsb letters_step]. intros H.
  destruct (Ascii.eqb_spec "h" c) as [<-|N]; [reflexivity|]. cbn [orb] in H.
  destruct (option_step _ None s); [apply IH, H|reflexivity].
Qed.
Lemma letters_some l s : existsb (Ascii.eqb "h") (list_ascii_of_string l) = false ->
  exists s', letters_step l s = Some s' /\ s_dev s' = dev_of (Letters (list_ascii_of_string l)) (s_dev s).
Proof.
  revert s. induction l as [|c l IH]; intros s; cbn [list_ascii_of_string existsb letters_step dev_of]; [eauto|]. intros H. apply orb_false_iff in H. destruct H as [Hc H].
  assert (exists s1, option_step (if has_char c shortopts then c else "?") None s = Some s1 /\
    s_dev s1 = if Ascii.eqb "d" c then None else s_dev s) as (s1 & -> & D1).
  { unfold option_step. cbn [has_char shortopts]. rewrite (Ascii.eqb_sym "h" c) in Hc. rewrite (Ascii.eqb_sym "d" c), Hc. cbn [orb].
    destruct (Ascii.eqb c "d") eqn:Ed; cbn [orb].
    - rewrite Hc, Ed. eexists. split; reflexivity.
    - destruct (Ascii.eqb c "p" || (Ascii.eqb c "i" || false)).
      + rewrite Hc, Ed. destruct (Ascii.eqb c "p"); [|destruct (Ascii.eqb c "s")]; eexists; split; reflexivity.
      + eexists. split; reflexivity. }
  destruct (IH s1 H) as (s' & -> & D). exists s'. split; [reflexivity|]. rewrite D. cbn [dev_of]. rewrite D1.
  destruct (Ascii.eqb "d" c); cbn [orb]; [destruct (existsb (Ascii.eqb "d") (list_ascii_of_string l)); reflexivity|reflexivity].
Qed.
Definition devs (is : list item) (d : option string) : option string := fold_left (fun d i => dev_of i d) is d.
Lemma step_value o c x s : In o option_names -> code o = Some (true, c) ->
  exists s', option_step c (Some x) s = Some s' /\ s_dev s' = dev_of (Named o x) (s_dev s).
Proof.
  intros I C. cbn in I. repeat (destruct I as [<-|I]; [first [discriminate|injection C as <-; eexists; split; reflexivity]|]). contradiction.
Qed.
Lemma options_items : forall args s,
  (existsb helps (items_of args) = true -> read_options args s = None) /\
  (existsb helps (items_of args) = false -> exists s', read_options args s = Some s' /\ s_dev s' = devs (items_of args) (s_dev s)).
Proof.
  assert (X : forall k args s, (length args <= k)%nat ->
    (existsb helps (items_of args) = true -> read_options args s = None) /\
    (existsb helps (items_of args) = false -> exists s', read_options args s = Some s' /\ s_dev s' = devs (items_of args) (s_dev s)));
    [|intros args s; exact (X _ args s (le_n _))].
  induction k as [|k IH]; intros [|a r] s L; cbn [length] in L; try lia; try (split; [discriminate|intros _; exists s; auto]).
  assert (Lr : (length r <= k)%nat) by lia.
  cbn [items_of read_options]. pose proof (shape_spec a) as Sh. destruct (shape_of a) as [|t|l|].
  - split; [discriminate|intros _; exists s; auto].
  - pose proof (split_value_spec t) as Sp. destruct (split_value t) as [n v]. pose proof (find_long_spec n) as F.
    destruct (find_long n) as [[[o b] c]|]; [destruct F as [A C]; destruct b|].
    + destruct v as [x|].
      * destruct (step_value o c x s (proj1 A) C) as (s1 & -> & D1). cbn [existsb helps orb devs fold_left]. rewrite <- D1. apply (IH r s1 Lr).
      * destruct r as [|x r']; [split; [discriminate|intros _; exists s; auto]|].
        destruct (step_value o c x s (proj1 A) C) as (s1 & -> & D1). cbn [existsb helps orb devs fold_left]. rewrite <- D1. apply (IH r' s1). cbn [length] in Lr. lia.
    + destruct v as [x|]; [cbn [existsb helps orb devs fold_left dev_of]; apply (IH r s Lr)|].
      assert (c = "h"%char) as ->. { destruct A as [I _]. cbn in I. repeat (destruct I as [<-|I]; [first [discriminate|injection C as <-; reflexivity]|]). contradiction. }
      cbn. split; [reflexivity|discriminate].
    + cbn [existsb helps orb devs fold_left dev_of]. apply (IH r s Lr).
  - cbn [existsb helps]. destruct (existsb (Ascii.eqb "h") (list_ascii_of_string l)) eqn:E; cbn [orb].
    + split; [intros _; rewrite (letters_none l s E); reflexivity|discriminate].
    + destruct (letters_some l s E) as (s1 & -> & D1). cbn [devs fold_left]. rewrite <- D1. apply (IH r s1 Lr).
  - cbn [existsb helps orb devs fold_left dev_of]. apply (IH r s Lr).
Qed.
Lemma devs_device is : device is (devs is (Some "/dev/hidraw1")).
Proof.
  generalize (@eq_refl _ (Some "/dev/hidraw1")). generalize (Some "/dev/hidraw1") at 1 3 as d0. intros d0 E0.
  enough ((exists before i after, is = (before ++ i :: after)%list /\ sets_device i (devs is d0) /\ forall j d', In j after -> ~ sets_device j d') \/
          (devs is d0 = d0 /\ forall j d', In j is -> ~ sets_device j d')) as [X|[X Y]]; [left; exact X|right; split; [congruence|exact Y]|].
  clear E0. revert d0. induction is as [|i is IH]; intros d0; [right; split; [reflexivity|intros j d' []]|].
  cbn [devs fold_left]. destruct (IH (dev_of i d0)) as [(b & j & a & -> & S & N)|[E N]].
  - left. exists (i :: b)%list, j, a. auto.
  - destruct (dev_of_dec i) as [[d S]|No].
    + left. exists [], i, is. split; [reflexivity|]. split; [|exact N]. unfold devs in E. rewrite E, (dev_of_sets i d0 d S). exact S.
    + right. unfold devs in E. rewrite E, (dev_of_other i d0 No). split; [reflexivity|]. intros j d' [<-|I]; [apply No|apply N, I].
Qed.
Lemma sets_function i d d' : sets_device i d -> sets_device i d' -> d = d'.
Proof. destruct i; cbn; try contradiction; intuition congruence. Qed.
Lemma device_devs is d : device is d -> devs is (Some "/dev/hidraw1") = d.
Proof.
  assert (Nd : forall l d0, (forall j d', In j l -> ~ sets_device j d') -> devs l d0 = d0).
  { induction l as [|i l IH]; intros d0 H; [reflexivity|]. cbn [devs fold_left]. rewrite (dev_of_other i d0); [apply IH; intros j d' I; apply H; right; exact I|intros d'; apply H; left; reflexivity]. }
  intros [(b & i & a & -> & S & N)|[-> N]]; [|apply Nd, N].
  unfold devs. rewrite fold_left_app. cbn [fold_left]. rewrite (dev_of_sets i _ d S). apply Nd, N.
Qed.
Lemma helps_any is : existsb helps is = true <-> Exists asks_help is.
Proof.
  rewrite existsb_exists, Exists_exists. split; intros (i & I & H); exists i; (split; [exact I|]); apply helps_spec; exact H.
Qed.
