(** Which locations survive being displayed and parsed; the order of locations. *)
From Verif Require Import Base OMap Models Unicode Regex Paths Location LocFacts.
Open Scope N_scope.

(** The numbers fit into a [usize] (they always do in the Rust program). *)
Definition in_range (l : location) : Prop :=
  match loc_in_file l with
  | Some (Line n) => n < 2 ^ 64
  | Some (LineAndColumn n m) => n < 2 ^ 64 /\ m < 2 ^ 64
  | _ => True
  end.

Lemma decimal_chars d n c : decimal d n -> In c d -> is_digit_ascii c = true.
Proof. intros [H _]. rewrite forallb_forall in H. apply H. Qed.

Lemma show_free n c : is_digit_ascii c = false -> ~ In c (show_N n).
Proof. intros H Hi. pose proof (decimal_chars _ _ _ (proj2 (show_N_spec n)) Hi). congruence. Qed.

Lemma app_shorter (f g P Q : str) :
  f ++ P = g ++ Q -> (length f < length g)%nat -> exists x t, g = f ++ x :: t /\ P = x :: t ++ Q.
Proof.
  revert g. induction f as [|c f IH]; intros [|d g] H Hl; cbn in *; try lia.
  - exists d, g. auto.
  - inversion H; subst. destruct (IH g) as (x & t & -> & E); [assumption|lia|]. eauto.
Qed.

Section Round.
  Context {U : UnicodeTables}.

  Definition ends_in_number (f : str) : Prop :=
    exists g d, g <> [] /\ f = g ++ COLON :: d /\ number d.

  Lemma number_free d : number d -> ~ In COLON d.
  Proof. intros [_ H] Hi. rewrite forallb_forall in H. specialize (H _ Hi). rewrite nd_colon in H. discriminate. Qed.

  Lemma show_number n : number (show_N n).
  Proof.
    destruct (show_N_spec n) as [H1 H2]. split; [exact H1|]. apply forallb_forall. intros c Hc.
    pose proof (decimal_chars _ _ _ H2 Hc) as H. rewrite is_nd_ascii; [exact H|].
    unfold is_digit_ascii in H. apply andb_true_iff in H. destruct H as [_ H]. apply N.leb_le in H. lia.
  Qed.

  Lemma last_colon (a b a' b' : str) :
    a ++ COLON :: b = a' ++ COLON :: b' -> ~ In COLON b -> ~ In COLON b' -> a = a' /\ b = b'.
  Proof.
    intros E H H'. pose proof (rsplit_once_last COLON a b H) as X.
    rewrite E, rsplit_once_last in X by exact H'. inversion X. auto.
  Qed.

  Theorem location_round_trip loc :
    in_range loc ->
    parse_location (show_location loc) = Done (inl loc) <->
    loc_file loc <> [] /\ ~ In NL (loc_file loc) /\
    match loc_in_file loc with
    | Some (LineAndColumn _ _) => True
    | Some (Line _) | None => ~ ends_in_number (loc_file loc)
    | Some (LocString _) => False
    end.
  Proof.
    intros HR. rewrite parse_location_ok. destruct loc as [f i].
    unfold show_location, in_range in *. cbn [loc_file loc_in_file] in *.
    destruct i as [[n|n m|t]|]; cbn [show_in_file].
    - (* line *) split.
      + intros (HN & d & ((E & Hf & P) & M) & _). split; [exact Hf|]. split; [intros H; apply HN, in_or_app; auto|].
        intros (g & d' & Hg & -> & Hd').
        assert (S : splits ((g ++ COLON :: d') ++ [COLON] ++ show_N n) g (Some d') (Some (show_N n))).
        { split; [cbn [pos_text]; rewrite <- app_assoc; reflexivity|]. split; [exact Hg|].
          split; [exact Hd'|apply show_number]. }
        apply M in S. rewrite app_length in S. cbn [length] in S. lia.
      + intros (Hf & HN & HE). split.
        { intros H. apply in_app_or in H. destruct H as [H|[H|H]]; [exact (HN H)|discriminate|].
          apply (show_free n NL); [reflexivity|exact H]. }
        exists (show_N n). split; [|split; [apply show_N_spec|exact HR]].
        split; [split; [cbn [pos_text]; rewrite app_nil_r; reflexivity|split; [exact Hf|apply show_number]]|].
        intros f' l' c' (E & Hf' & P).
        destruct (Nat.le_gt_cases (length f) (length f')) as [Hle|Hgt]; [exact Hle|]. exfalso.
        destruct (app_shorter _ _ _ _ (eq_sym E) Hgt) as (x & t & -> & Ep).
        destruct l' as [d|]; [|discriminate Ep]. cbn [pos_text] in Ep. inversion Ep; subst x.
        destruct c' as [e|]; cbn [positions] in P.
        * cbn [app] in H1. apply last_colon in H1;
            [|apply number_free; apply P|apply number_free, show_number].
          destruct H1 as [-> _]. apply HE. exists f', t. split; [exact Hf'|]. split; [reflexivity|apply P].
        * rewrite app_nil_r in H1. apply (number_free d P). rewrite H1. apply in_or_app. right. left. reflexivity.
    - (* line and column *) split.
      + intros (HN & d & e & ((E & Hf & P) & M) & _). split; [exact Hf|].
        split; [intros H; apply HN, in_or_app; auto|exact I].
      + intros (Hf & HN & _). split.
        { intros H. rewrite !in_app_iff in H. cbn [In] in H.
          destruct H as [H|[[H|[]]|[H|[[H|[]]|H]]]]; [exact (HN H)|discriminate| |discriminate|].
          - apply (show_free n NL); [reflexivity|exact H].
          - apply (show_free m NL); [reflexivity|exact H]. }
        exists (show_N n), (show_N m).
        split; [|split; (split; [apply show_N_spec|apply HR])].
        split; [split; [reflexivity|split; [exact Hf|split; apply show_number]]|].
        intros f' l' c' (E & Hf' & P).
        destruct (Nat.le_gt_cases (length f) (length f')) as [Hle|Hgt]; [exact Hle|]. exfalso.
        destruct (app_shorter _ _ _ _ (eq_sym E) Hgt) as (x & t & -> & Ep).
        destruct l' as [d|]; [|discriminate Ep]. cbn [pos_text] in Ep. inversion Ep; subst x.
        destruct c' as [e|]; cbn [positions] in P.
        * cbn [app] in H1.
          change (t ++ COLON :: show_N n ++ COLON :: show_N m)
            with (t ++ (COLON :: show_N n) ++ COLON :: show_N m) in H1.
          rewrite app_assoc in H1. apply last_colon in H1;
            [|apply number_free; apply P|apply number_free, show_number].
          destruct H1 as [-> _]. apply (number_free _ (proj1 P)). apply in_or_app. right. left. reflexivity.
        * rewrite app_nil_r in H1. apply (number_free d P). rewrite H1. apply in_or_app. right. left. reflexivity.
    - split; [intros [_ []]|intros (_ & _ & [])].
    - (* none *) split.
      + intros (HN & (E & Hf & _) & M). split; [exact Hf|]. split; [exact HN|].
        intros (g & d & Hg & Ef & Hd).
        assert (S : splits f g (Some d) None).
        { split; [cbn [pos_text]; rewrite app_nil_r; exact Ef|]. split; [exact Hg|exact Hd]. }
        apply M in S. rewrite Ef, app_length in S. cbn [length] in S. lia.
      + intros (Hf & HN & HE). split; [exact HN|].
        split; [split; [cbn [pos_text]; rewrite app_nil_r; reflexivity|split; [exact Hf|exact I]]|].
        intros f' l' c' (E & Hf' & P).
        destruct (Nat.le_gt_cases (length f) (length f')) as [Hle|Hgt]; [exact Hle|]. exfalso. apply HE.
        destruct l' as [d|].
        2:{ cbn [pos_text] in E. rewrite app_nil_r in E. subst f'. lia. }
        cbn [pos_text] in E. destruct c' as [e|]; cbn [positions] in P.
        * exists (f' ++ COLON :: d), e. split; [destruct f'; discriminate|]. split; [|apply P].
          rewrite <- app_assoc. exact E.
        * exists f', d. rewrite app_nil_r in E. auto.
  Qed.

  (** When parsing fails. *)
  Theorem parse_location_total s : exists x, parse_location s = Done x.
  Proof.
    destruct (parse_location_exact s) as [X1 X2].
    destruct s as [|c w]; [rewrite X1 by auto; eauto|].
    destruct (classic_nl (c :: w)) as [H|H]; [rewrite X1 by auto; eauto|].
    destruct X2 as (f & l & k & _ & ->); [intros [E|E]; [discriminate|exact (H E)]|]. eauto.
  Qed.

  Lemma parse_digits_fails d : (exists e, parse_digits d 0 = inr e) <-> ~ exists n, decimal d n /\ n < USIZE.
  Proof.
    split.
    - intros (e & He) (n & Hn). apply parse_digits_decimal in Hn. congruence.
    - intros H. destruct (parse_digits d 0) as [n|e] eqn:E; [|eauto].
      exfalso. apply H. exists n. apply parse_digits_decimal. exact E.
  Qed.

  Theorem parse_location_fails s :
    (exists e, parse_location s = Done (inr e)) <->
    s = [] \/ In NL s \/
    exists f l c, splits_best s f l c /\
      exists d, (l = Some d \/ c = Some d) /\ ~ exists n, decimal d n /\ n < USIZE.
  Proof.
    destruct (parse_location_exact s) as [X1 X2]. split.
    - intros (e & He). destruct s as [|x w]; [auto|]. right.
      destruct (classic_nl (x :: w)) as [H|H]; [auto|]. right.
      destruct X2 as (f & l & c & B & E); [intros [E|E]; [discriminate|exact (H E)]|].
      exists f, l, c. split; [exact B|]. rewrite E in He. unfold read_parts in He.
      destruct l as [d|]; [|discriminate].
      destruct (parse_digits d 0) as [n|e'] eqn:En.
      + destruct c as [d'|]; [|discriminate]. exists d'. split; [auto|]. apply parse_digits_fails.
        destruct (parse_digits d' 0) as [m|e'']; [discriminate|eauto].
      + exists d. split; [auto|]. apply parse_digits_fails. eauto.
    - intros H. destruct (classic_nl s) as [Hn|Hn]; [rewrite X1 by auto; eauto|].
      destruct H as [->|[H|H]]; [rewrite X1 by auto; eauto|contradiction|].
      destruct H as (f & l & c & B & d & Hd & HF).
      destruct X2 as (f' & l' & c' & B' & E).
      { intros [->|]; [|auto]. destruct B as ((E & Hf & _) & _). destruct f; [auto|discriminate]. }
      destruct (splits_best_unique _ _ _ _ _ _ _ B B') as (<- & <- & <-). rewrite E. unfold read_parts.
      destruct l as [d0|].
      2:{ destruct B as ((_ & _ & P) & _). destruct c; [destruct P|]. destruct Hd; discriminate. }
      destruct (parse_digits d0 0) as [n|e] eqn:En; [|eauto].
      destruct Hd as [Hd|Hd].
      + inversion Hd; subst d0. exfalso. apply HF. exists n. apply parse_digits_decimal. exact En.
      + subst c. apply parse_digits_fails in HF. destruct HF as (e & ->). eauto.
  Qed.

  (** Why a text of digits is not a number: the first character that is not ASCII, or the first
      one that makes the number too large. *)
  Definition bad_number (d m : str) : Prop :=
    exists a c b n, d = a ++ c :: b /\ decimal a n /\ n < 2 ^ 64 /\
      ((is_digit_ascii c = false /\ m = L "invalid digit found in string") \/
       (exists n', decimal (a ++ [c]) n' /\ 2 ^ 64 <= n' /\ m = L "number too large to fit in target type")).

  Lemma parse_digits_message d : forall a n, decimal a n -> n < 2 ^ 64 ->
    match parse_digits d n with
    | inl n' => decimal (a ++ d) n' /\ n' < 2 ^ 64
    | inr m => bad_number (a ++ d) m
    end.
  Proof.
    induction d as [|c d IH]; intros a n Ha Hn; cbn [parse_digits].
    { rewrite app_nil_r. auto. }
    destruct (is_digit_ascii c) eqn:Hc.
    2:{ exists a, c, d, n. split; [reflexivity|]. split; [exact Ha|]. split; [exact Hn|]. left. auto. }
    assert (Hs : decimal (a ++ [c]) (10 * n + (c - 48))).
    { destruct Ha as [H1 <-]. split; [|apply value_from_snoc].
      rewrite forallb_app, H1. cbn [forallb]. rewrite Hc. reflexivity. }
    destruct (N.ltb_spec (10 * n + (c - 48)) USIZE) as [H|H].
    - specialize (IH _ _ Hs H). rewrite <- app_assoc in IH. exact IH.
    - exists a, c, d, n. split; [reflexivity|]. split; [exact Ha|]. split; [exact Hn|]. right. eauto.
  Qed.

  (** The error texts. *)
  Theorem parse_location_message s :
    ((s = [] \/ In NL s) -> parse_location s = Done (inr (L "Invalid Location"))) /\
    forall f d c, ~ In NL s -> splits_best s f (Some d) c ->
      ((~ exists n, decimal d n /\ n < 2 ^ 64) ->
       exists m, bad_number d m /\ parse_location s = Done (inr (L "Error parsing line " ++ d ++ L ": " ++ m))) /\
      forall e, c = Some e -> (exists n, decimal d n /\ n < 2 ^ 64) -> (~ exists n, decimal e n /\ n < 2 ^ 64) ->
       exists m, bad_number e m /\ parse_location s = Done (inr (L "Error parsing column " ++ e ++ L ": " ++ m)).
  Proof.
    destruct (parse_location_exact s) as [X1 X2]. split; [exact X1|]. intros f d c Hn B.
    destruct X2 as (f' & l' & c' & B' & E).
    { intros [->|]; [|auto]. destruct B as ((E & Hf & _) & _). destruct f; [auto|discriminate]. }
    destruct (splits_best_unique _ _ _ _ _ _ _ B B') as (<- & <- & <-). rewrite E. unfold read_parts.
    assert (Z : decimal [] 0) by (split; reflexivity).
    pose proof (parse_digits_message d [] 0 Z eq_refl) as Hd. cbn [app] in Hd. split.
    - intros HF. destruct (parse_digits d 0) as [n|m]; [exfalso; apply HF; eauto|]. eauto.
    - intros e -> (n & HN) HF. apply parse_digits_decimal in HN. rewrite HN.
      pose proof (parse_digits_message e [] 0 Z eq_refl) as He. cbn [app] in He.
      destruct (parse_digits e 0) as [n'|m]; [exfalso; apply HF; eauto|]. eauto.
  Qed.
End Round.

(** ** Order *)
(** The place a numeric position denotes. *)
Definition place (x : location_in_file) : option (N * N) :=
  match x with
  | Line l => Some (l, 0)
  | LineAndColumn l c => Some (l, c)
  | LocString _ => None
  end.

Lemma pair_cmp0 l l' : cmp_pair (l, 0) (l', 0) = N.compare l l'.
Proof. unfold cmp_pair. cbn. destruct (N.compare l l'); reflexivity. Qed.

Theorem cmp_in_file_exact x y :
  cmp_in_file x y =
  match x, y with
  | LocString s, LocString t => Some (cmp s t)
  | _, _ => match place x, place y with
            | Some a, Some b => Some (cmp a b)
            | _, _ => None
            end
  end.
Proof. destruct x, y; cbn [cmp_in_file place]; try reflexivity. rewrite <- pair_cmp0. reflexivity. Qed.

Theorem cmp_in_file_dual x y : cmp_in_file y x = option_map CompOpp (cmp_in_file x y).
Proof.
  rewrite !cmp_in_file_exact. destruct x, y; cbn [place option_map]; try reflexivity; f_equal; apply cmp_opp.
Qed.

Theorem cmp_in_file_trans x y z o :
  cmp_in_file x y = Some o -> cmp_in_file y z = Some o -> cmp_in_file x z = Some o.
Proof.
  assert (G : forall (K : Type) (O : Ord K) (a b c : K), cmp a b = o -> cmp b c = o -> cmp a c = o).
  { intros K O a b c H1 H2. destruct o.
    - apply cmp_eq in H1, H2. subst. apply cmp_eq. reflexivity.
    - eapply cmp_trans; eassumption.
    - apply cmp_gt_lt in H1, H2. apply cmp_gt_lt. eapply lt_trans; eassumption. }
  rewrite !cmp_in_file_exact.
  destruct x, y, z; cbn [place]; try discriminate; intros H1 H2;
    apply (f_equal (fun t => opt_default t Eq)) in H1, H2; unfold opt_default in H1, H2;
    f_equal; exact (G _ _ _ _ _ H1 H2).
Qed.
