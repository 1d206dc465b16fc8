(** SerdeJson.v reads exactly the texts of JsonGrammar.v, and writes one of them. *)
From Coq Require Import ZArith ZifyN.
From Verif Require Import Base OMap Models Unicode Location LocFacts Utf8 Serialize Formatters SerdeJson JsonGrammar.
Open Scope N_scope.

(** ** Blanks *)
Lemma json_blank_spec c : json_blank c = true <-> blank c.
Proof. unfold json_blank, blank. rewrite !orb_true_iff, !N.eqb_eq. tauto. Qed.
Lemma skip_app a s : blanks a -> skip_blanks (a ++ s) = skip_blanks s.
Proof.
  induction 1 as [|c a Hc Ha IH]; [reflexivity|]. cbn [app skip_blanks].
  apply json_blank_spec in Hc. rewrite Hc. exact IH.
Qed.
Lemma skip_split s : exists a, blanks a /\ s = a ++ skip_blanks s.
Proof.
  induction s as [|c s (a & Ha & E)]; [exists []; split; [constructor|reflexivity]|]. cbn [skip_blanks].
  destruct (json_blank c) eqn:B.
  - exists (c :: a). split; [constructor; [apply json_blank_spec; exact B|exact Ha]|]. cbn. congruence.
  - exists []. split; [constructor|reflexivity].
Qed.
Lemma skip_head c s : ~ blank c -> skip_blanks (c :: s) = c :: s.
Proof. intros H. cbn. destruct (json_blank c) eqn:B; [apply json_blank_spec in B; contradiction|reflexivity]. Qed.
Lemma skip_length s : (length (skip_blanks s) <= length s)%nat.
Proof. induction s as [|c s IH]; cbn; [lia|]. destruct (json_blank c); cbn; lia. Qed.
Lemma skip_blanks_all a : blanks a -> skip_blanks a = [].
Proof. intros H. rewrite <- (app_nil_r a). rewrite skip_app by exact H. reflexivity. Qed.
Lemma skip_nil s : skip_blanks s = [] -> blanks s.
Proof. destruct (skip_split s) as (a & Ha & E). intros H. rewrite H, app_nil_r in E. subst. exact Ha. Qed.

(** ** Digits *)
Lemma digit_spec c : is_digit_ascii c = true <-> digit c.
Proof. unfold is_digit_ascii, digit. rewrite andb_true_iff, !N.leb_le. reflexivity. Qed.
Lemma digits_forallb s : Forall digit s <-> forallb is_digit_ascii s = true.
Proof.
  rewrite forallb_forall, Forall_forall. split; intros H c Hc; apply digit_spec; exact (H c Hc).
Qed.
Lemma hex_spec c n : hex_value c = Some n <-> hex c n.
Proof.
  unfold hex_value. split.
  - destruct (is_digit_ascii c) eqn:D.
    { apply digit_spec in D. unfold digit in D. intros E; injection E as <-.
      replace c with (48 + (c - 48)) at 1 by lia. apply hex_digit. lia. }
    destruct ((97 <=? c) && (c <=? 102)) eqn:D2.
    { apply andb_true_iff in D2. rewrite !N.leb_le in D2. intros E; injection E as <-.
      replace c with (97 + ((c - 87) - 10)) at 1 by lia. apply hex_lower. lia. }
    destruct ((65 <=? c) && (c <=? 70)) eqn:D3; [|discriminate].
    apply andb_true_iff in D3. rewrite !N.leb_le in D3. intros E; injection E as <-.
    replace c with (65 + ((c - 55) - 10)) at 1 by lia. apply hex_upper. lia.
  - intros H. destruct H as [n H|n H|n H].
    + rewrite (proj2 (digit_spec _)) by (unfold digit; lia). f_equal. lia.
    + replace (is_digit_ascii _) with false by (symmetry; apply not_true_iff_false; rewrite digit_spec; unfold digit; lia).
      replace ((97 <=? _) && _) with true by (symmetry; apply andb_true_iff; rewrite !N.leb_le; lia). f_equal. lia.
    + replace (is_digit_ascii _) with false by (symmetry; apply not_true_iff_false; rewrite digit_spec; unfold digit; lia).
      replace ((97 <=? _) && _) with false by (symmetry; apply not_true_iff_false; rewrite andb_true_iff, !N.leb_le; lia).
      replace ((65 <=? _) && _) with true by (symmetry; apply andb_true_iff; rewrite !N.leb_le; lia). f_equal. lia.
Qed.
Lemma hex4_spec a b c d n : hex4 a b c d = Some n <-> hexes [a; b; c; d] n.
Proof.
  unfold hex4. split.
  - destruct (hex_value a) as [x|] eqn:A; [|discriminate]. destruct (hex_value b) as [y|] eqn:B; [|discriminate].
    destruct (hex_value c) as [z|] eqn:C; [|discriminate]. destruct (hex_value d) as [w|] eqn:D; [|discriminate].
    intros E. assert (Q : n = x * 16 ^ 3 + y * 16 ^ 2 + z * 16 + w).
    { assert (Q : 4096 * x + 256 * y + 16 * z + w = n) by congruence. rewrite <- Q. lia. }
    rewrite Q. apply hex_spec in A, B, C, D.
    exact (hexes_4 _ _ _ _ _ _ _ _ A B C D).
  - intros H. inversion H as [a' b' c' d' x y z w A B C D E1 E2]; subst.
    apply hex_spec in A, B, C, D. rewrite A, B, C, D. f_equal. lia.
Qed.
Lemma hexes_shape h n : hexes h n -> exists a b c d, h = [a; b; c; d].
Proof. intros H. destruct H. eauto. Qed.

(** ** Strings *)
Lemma unescape_spec e c : unescape e = Some c -> e <> 117 /\ exists s, L s = [e] /\ In (s, c) short_escapes.
Proof.
  unfold unescape.
  repeat match goal with
         | |- (if ?e =? ?n then _ else _) = _ -> _ =>
             destruct (N.eqb_spec e n) as [->|]; [intros E; injection E as <-|]
         end; try discriminate; (split; [discriminate|]).
  - exists """"%string. split; [reflexivity|]. cbn; tauto.
  - exists "\"%string. split; [reflexivity|]. cbn; tauto.
  - exists "/"%string. split; [reflexivity|]. cbn; tauto.
  - exists "b"%string. split; [reflexivity|]. cbn; tauto.
  - exists "f"%string. split; [reflexivity|]. cbn; tauto.
  - exists "n"%string. split; [reflexivity|]. cbn; tauto.
  - exists "r"%string. split; [reflexivity|]. cbn; tauto.
  - exists "t"%string. split; [reflexivity|]. cbn; tauto.
Qed.
Lemma surrogate_low n : low_surrogate n = true <-> 56320 <= n < 57344.
Proof. unfold low_surrogate. rewrite andb_true_iff, !N.leb_le. lia. Qed.
Lemma surrogate_high n : high_surrogate n = true <-> 55296 <= n < 56320.
Proof. unfold high_surrogate. rewrite andb_true_iff, !N.leb_le. lia. Qed.

Lemma read_chars_sound : forall k s t r, (length s <= k)%nat -> read_chars s = Some (t, r) ->
  exists u, chars u t /\ s = u ++ [34] ++ r.
Proof.
  induction k as [|k IH]; intros s t r Hk H.
  { destruct s; [discriminate|cbn in Hk; lia]. }
  destruct s as [|c s1]; [discriminate|]. cbn [read_chars] in H.
  assert (P : forall x s', put x (read_chars s') = Some (t, r) -> (length s' <= k)%nat ->
              exists u t', t = x :: t' /\ chars u t' /\ s' = u ++ [34] ++ r).
  { intros x s' E Hl. destruct (read_chars s') as [[t' r']|] eqn:E'; [|discriminate].
    cbn [put] in E. injection E as <- <-. destruct (IH s' t' r' Hl E') as (u & Hu & ->).
    exists u, t'. auto. }
  cbn [length] in Hk.
  destruct (N.eqb_spec c 34) as [->|N34].
  { injection H as <- <-. exists []. split; [constructor|reflexivity]. }
  destruct (N.eqb_spec c 92) as [->|N92].
  - destruct s1 as [|e s2]; [discriminate|]. destruct (N.eqb_spec e 117) as [->|Nu].
    + destruct s2 as [|h1 [|h2 [|h3 [|h4 s3]]]]; try discriminate.
      destruct (hex4 h1 h2 h3 h4) as [n|] eqn:HX; [|discriminate]. apply hex4_spec in HX.
      destruct (low_surrogate n) eqn:LS; [discriminate|].
      destruct (high_surrogate n) eqn:HS.
      * destruct s3 as [|b [|u [|g1 [|g2 [|g3 [|g4 s4]]]]]]; try discriminate.
        destruct (N.eqb_spec b 92) as [->|]; [|discriminate]. destruct (N.eqb_spec u 117) as [->|]; [|discriminate].
        cbn [andb] in H. destruct (hex4 g1 g2 g3 g4) as [m|] eqn:GX; [|discriminate]. apply hex4_spec in GX.
        destruct (low_surrogate m) eqn:LM; [|discriminate]. apply surrogate_low in LM. apply surrogate_high in HS.
        destruct (P _ _ H) as (v & t' & -> & Hv & ->). { cbn [length] in Hk. lia. }
        exists (L "\u" ++ [h1; h2; h3; h4] ++ L "\u" ++ [g1; g2; g3; g4] ++ v). split; [|reflexivity].
        replace (65536 + 1024 * (n - 55296) + (m - 56320)) with (65536 + (n - 55296) * 1024 + (m - 56320)) by lia.
        apply chars_pair; assumption.
      * destruct (P _ _ H) as (v & t' & -> & Hv & ->). { cbn [length] in Hk. lia. }
        exists (L "\u" ++ [h1; h2; h3; h4] ++ v). split; [|reflexivity].
        apply chars_unicode; [exact HX| |exact Hv].
        apply not_true_iff_false in LS, HS. rewrite surrogate_low in LS. rewrite surrogate_high in HS. lia.
    + destruct (unescape e) as [x|] eqn:U; [|discriminate].
      apply unescape_spec in U. destruct U as (_ & es & Es & Hin).
      destruct (P _ _ H) as (v & t' & -> & Hv & ->). { cbn [length] in Hk. lia. }
      exists (L "\" ++ L es ++ v). split; [|rewrite Es; reflexivity]. apply chars_short; assumption.
  - destruct (N.ltb_spec c 32) as [|G]; [discriminate|].
    destruct (P _ _ H) as (v & t' & -> & Hv & ->). { lia. }
    exists (c :: v). split; [|reflexivity]. apply chars_plain; assumption.
Qed.

Lemma read_chars_complete u t r : chars u t -> read_chars (u ++ [34] ++ r) = Some (t, r).
Proof.
  intros H. induction H as [|c s t H1 H2 H3 Hs IH|e c s t Hin Hs IH|h n s t HX Hn Hs IH|g n h m s t GX Gn HX Hm Hs IH].
  - reflexivity.
  - cbn [app read_chars]. rewrite (proj2 (N.eqb_neq c 34)), (proj2 (N.eqb_neq c 92)) by assumption.
    rewrite (proj2 (N.ltb_ge c 32)) by assumption. change (34 :: r) with ([34] ++ r). rewrite IH. reflexivity.
  - cbn [In short_escapes] in Hin.
    repeat (destruct Hin as [Hin|Hin]; [injection Hin as <- <-; cbn [L app read_chars N_of_ascii]; change (34 :: r) with ([34] ++ r);
      cbn; change (34 :: r) with ([34] ++ r); rewrite IH; reflexivity|]). destruct Hin.
  - destruct (hexes_shape _ _ HX) as (a & b & c & d & ->).
    assert (E : hex4 a b c d = Some n) by (apply hex4_spec; exact HX).
    change ((L "\u" ++ [a; b; c; d] ++ s) ++ [34] ++ r) with (92 :: 117 :: a :: b :: c :: d :: (s ++ [34] ++ r)).
    cbn [read_chars]. rewrite E. change (92 =? 34) with false. change (92 =? 92) with true. change (117 =? 117) with true.
    cbv iota.
    replace (low_surrogate n) with false by (symmetry; apply not_true_iff_false; rewrite surrogate_low; lia).
    replace (high_surrogate n) with false by (symmetry; apply not_true_iff_false; rewrite surrogate_high; lia).
    rewrite IH. reflexivity.
  - destruct (hexes_shape _ _ GX) as (a & b & c & d & ->). destruct (hexes_shape _ _ HX) as (a' & b' & c' & d' & ->).
    assert (E : hex4 a b c d = Some n) by (apply hex4_spec; exact GX).
    assert (E' : hex4 a' b' c' d' = Some m) by (apply hex4_spec; exact HX).
    change ((L "\u" ++ [a; b; c; d] ++ L "\u" ++ [a'; b'; c'; d'] ++ s) ++ [34] ++ r)
      with (92 :: 117 :: a :: b :: c :: d :: 92 :: 117 :: a' :: b' :: c' :: d' :: (s ++ [34] ++ r)).
    cbn [read_chars]. rewrite E. change (92 =? 34) with false. change (92 =? 92) with true. change (117 =? 117) with true.
    cbv iota. cbn [andb]. cbv iota. rewrite E'.
    replace (low_surrogate n) with false by (symmetry; apply not_true_iff_false; rewrite surrogate_low; lia).
    replace (high_surrogate n) with true by (symmetry; rewrite surrogate_high; lia).
    replace (low_surrogate m) with true by (symmetry; rewrite surrogate_low; lia).
    rewrite IH. cbn [put]. do 3 f_equal. lia.
Qed.

Lemma read_quoted s t r : quoted s t -> exists u, s ++ r = 34 :: u /\ read_chars u = Some (t, r) /\ (length u < length (s ++ r))%nat.
Proof.
  intros (u & Hu & ->). exists (u ++ [34] ++ r). split; [|split].
  - change (L """") with [34]. rewrite <- !app_assoc. reflexivity.
  - apply read_chars_complete. exact Hu.
  - change (L """") with [34]. rewrite <- !app_assoc. apply Nat.lt_succ_diag_r.
Qed.

(** ** Numbers *)
(** What may follow a value. *)
Definition stops (r : str) : Prop :=
  match r with [] => True | c :: _ => blank c \/ c = 44 \/ c = 93 \/ c = 125 end.
Lemma stops_digit r : stops r -> match r with c :: _ => is_digit_ascii c = false | [] => True end.
Proof.
  destruct r as [|c r]; [trivial|]. intros H. apply not_true_iff_false. rewrite digit_spec.
  unfold stops, blank, digit in *. lia.
Qed.
Lemma span_digits ds r : Forall digit ds -> match r with c :: _ => is_digit_ascii c = false | [] => True end ->
  span is_digit_ascii (ds ++ r) = (ds, r).
Proof. intros H1 H2. apply span_app; [apply digits_forallb; exact H1|exact H2]. Qed.
Lemma span_digits_sound s ds r : span is_digit_ascii s = (ds, r) -> s = ds ++ r /\ Forall digit ds.
Proof.
  intros E. pose proof (span_eq is_digit_ascii s) as H1. pose proof (span_all is_digit_ascii s) as H2.
  rewrite E in H1, H2. cbn in H1, H2. split; [congruence|]. apply digits_forallb. exact H2.
Qed.
Lemma int_digits i : int i -> Forall digit i /\ plain_int i = true.
Proof.
  intros H. destruct H as [|c s Hc Hs].
  - split; [|reflexivity]. repeat constructor; vm_compute; discriminate.
  - split; [constructor; [unfold digit; lia|exact Hs]|]. cbn. rewrite (proj2 (N.eqb_neq c 48)) by lia. reflexivity.
Qed.
Lemma plain_int_sound ds : Forall digit ds -> plain_int ds = true -> int ds.
Proof.
  intros HD HP. destruct ds as [|c ds]; [discriminate|]. inversion HD as [|? ? Hc Hs]; subst. cbn [plain_int] in HP.
  destruct (N.eqb_spec c 48) as [->|Ne].
  - destruct ds; [|discriminate]. exact int_zero.
  - apply int_other; [unfold digit in Hc; lia|exact Hs].
Qed.
Lemma value_of_digits_from ds a : fold_left (fun a c => 10 * a + (c - 48)) ds a = a * 10 ^ N.of_nat (length ds) + decimal_value ds.
Proof.
  revert a. induction ds as [|c ds IH]; intros a; cbn [fold_left length decimal_value].
  - change (N.of_nat 0) with 0. rewrite N.pow_0_r. lia.
  - rewrite IH, Nat2N.inj_succ, N.pow_succ_r'. change (@Datatypes.length chr ds) with (@Datatypes.length N ds).
    generalize (c - 48) (10 ^ N.of_nat (@Datatypes.length N ds)). intros x y. ring.
Qed.
Lemma value_of_digits_spec ds : value_of_digits ds = decimal_value ds.
Proof. unfold value_of_digits. rewrite value_of_digits_from. lia. Qed.

Lemma read_fraction_sound s b r : read_fraction s = Some (b, r) ->
  exists f, frac f /\ s = f ++ r /\ (b = true <-> f <> []).
Proof.
  unfold read_fraction. destruct s as [|c s].
  { intros E; injection E as <- <-. exists []. split; [constructor|]. split; [reflexivity|]. split; congruence. }
  destruct (N.eqb_spec c 46) as [->|Ne].
  - destruct (span is_digit_ascii s) as [ds r'] eqn:E. destruct (span_digits_sound _ _ _ E) as [-> HD].
    destruct ds as [|d ds]; [discriminate|]. cbn [is_nil]. intros E'; injection E' as <- <-.
    exists (L "." ++ d :: ds). split; [constructor; split; [discriminate|exact HD]|]. split; [reflexivity|]. split; [discriminate|reflexivity].
  - intros E; injection E as <- <-. exists []. split; [constructor|]. split; [reflexivity|]. split; congruence.
Qed.
Definition no_fraction (r : str) := match r with c :: _ => c <> 46 /\ is_digit_ascii c = false | [] => True end.
Lemma read_fraction_complete f r : frac f -> no_fraction r ->
  read_fraction (f ++ r) = Some (negb (is_nil f), r).
Proof.
  intros H Hr. destruct H as [|ds [Hne HD]].
  - cbn [app]. unfold read_fraction. destruct r as [|c r]; [reflexivity|]. destruct Hr as [Hr _].
    rewrite (proj2 (N.eqb_neq c 46)) by exact Hr. reflexivity.
  - change ((L "." ++ ds) ++ r) with (46 :: (ds ++ r)). unfold read_fraction. change (46 =? 46) with true. cbv iota.
    rewrite span_digits; [|exact HD|destruct r; [trivial|apply Hr]]. destruct ds; [contradiction|]. reflexivity.
Qed.
Lemma read_exponent_sound s b r : read_exponent s = Some (b, r) ->
  exists f, exp f /\ s = f ++ r /\ (b = true <-> f <> []).
Proof.
  unfold read_exponent. destruct s as [|c s].
  { intros E; injection E as <- <-. exists []. split; [constructor|]. split; [reflexivity|]. split; congruence. }
  destruct ((c =? 101) || (c =? 69)) eqn:C.
  - assert (HC : [c] = L "e" \/ [c] = L "E").
    { apply orb_true_iff in C. rewrite !N.eqb_eq in C. destruct C as [-> | ->]; [left|right]; reflexivity. }
    assert (HS : exists sign s'', s = sign ++ s'' /\ (sign = [] \/ sign = L "+" \/ sign = L "-") /\
                   match s with x :: y => if (x =? 43) || (x =? 45) then y else s | [] => s end = s'').
    { destruct s as [|x y]; [exists [], []; auto|]. destruct ((x =? 43) || (x =? 45)) eqn:X.
      - exists [x], y. split; [reflexivity|]. split; [|reflexivity].
        apply orb_true_iff in X. rewrite !N.eqb_eq in X. destruct X as [-> | ->]; auto.
      - exists [], (x :: y). auto. }
    destruct HS as (sign & s'' & -> & Hsign & ->).
    destruct (span is_digit_ascii s'') as [ds r'] eqn:E. destruct (span_digits_sound _ _ _ E) as [-> HD].
    destruct ds as [|d ds]; [discriminate|]. cbn [is_nil]. intros E'; injection E' as <- <-.
    exists ([c] ++ sign ++ d :: ds). split.
    + apply exp_some; [exact HC|exact Hsign|split; [discriminate|exact HD]].
    + split; [rewrite <- !app_assoc; reflexivity|]. split; [discriminate|reflexivity].
  - intros E; injection E as <- <-. exists []. split; [constructor|]. split; [reflexivity|]. split; congruence.
Qed.
Lemma read_exponent_complete f r : exp f -> stops r ->
  read_exponent (f ++ r) = Some (negb (is_nil f), r).
Proof.
  intros H Hr. destruct H as [|e sign ds He Hs [Hne HD]].
  - cbn [app]. unfold read_exponent. destruct r as [|c r]; [reflexivity|].
    replace ((c =? 101) || (c =? 69)) with false; [reflexivity|]. symmetry. apply orb_false_iff.
    rewrite !N.eqb_neq. unfold stops, blank in Hr. lia.
  - assert (HE : exists c, e = [c] /\ (c =? 101) || (c =? 69) = true).
    { destruct He as [-> | ->]; eexists; (split; [reflexivity|reflexivity]). }
    destruct HE as (c & -> & HE). rewrite <- !app_assoc. cbn [app]. unfold read_exponent. rewrite HE.
    assert (ES : match sign ++ ds ++ r with x :: y => if (x =? 43) || (x =? 45) then y else sign ++ ds ++ r | [] => sign ++ ds ++ r end = ds ++ r).
    { destruct Hs as [-> | [-> | ->]]; [|reflexivity|reflexivity]. cbn [app].
      destruct ds as [|d ds]; [contradiction|]. cbn [app]. inversion HD as [|? ? Hd _]; subst.
      replace ((d =? 43) || (d =? 45)) with false; [reflexivity|]. symmetry. apply orb_false_iff. rewrite !N.eqb_neq.
      unfold digit in Hd. lia. }
    rewrite ES. rewrite span_digits; [|exact HD|apply stops_digit; exact Hr]. destruct ds; [contradiction|]. reflexivity.
Qed.

Lemma read_number_sound s v r : read_number s = Some (v, r) -> exists t, value t v /\ s = t ++ r.
Proof.
  unfold read_number.
  assert (HM : exists m s1, s = m ++ s1 /\ minus m /\
             read_minus s = (negb (is_nil m), s1)).
  { unfold read_minus. destruct s as [|c s]; [exists [], []; repeat split; left; reflexivity|].
    destruct (N.eqb_spec c 45) as [->|]; [exists (L "-"), s; repeat split; right; reflexivity|].
    exists [], (c :: s). repeat split; left; reflexivity. }
  destruct HM as (m & s1 & -> & Hm & ->).
  destruct (span is_digit_ascii s1) as [ds s2] eqn:ED. destruct (span_digits_sound _ _ _ ED) as [-> HD]. clear ED.
  destruct (plain_int ds) eqn:HP; [|discriminate]. pose proof (plain_int_sound _ HD HP) as HI.
  destruct (read_fraction s2) as [[fb s3]|] eqn:EF; [|discriminate].
  destruct (read_fraction_sound _ _ _ EF) as (f & Hf & -> & Bf).
  destruct (read_exponent s3) as [[eb s4]|] eqn:EE; [|discriminate].
  destruct (read_exponent_sound _ _ _ EE) as (e & He & -> & Be).
  intros E; injection E as <- <-. exists (m ++ ds ++ f ++ e). split; [|rewrite <- !app_assoc; reflexivity].
  destruct m as [|x m].
  - cbn [is_nil negb orb]. destruct fb; [|destruct eb].
    + apply value_number; auto. right; left. apply Bf. reflexivity.
    + apply value_number; auto. right; right. apply Be. reflexivity.
    + cbn [orb]. assert (f = []) as -> by (destruct f; [reflexivity|]; discriminate (proj2 Bf ltac:(discriminate))).
      assert (e = []) as -> by (destruct e; [reflexivity|]; discriminate (proj2 Be ltac:(discriminate))).
      rewrite value_of_digits_spec, !app_nil_r. apply value_natural. exact HI.
  - cbn [is_nil negb orb]. apply value_number; auto. left. discriminate.
Qed.

Lemma read_number_complete m i f e r : minus m -> int i -> frac f -> exp e -> stops r ->
  read_number ((m ++ i ++ f ++ e) ++ r) =
  Some (if negb (is_nil m) || negb (is_nil f) || negb (is_nil e) then JOtherNum else JNum (decimal_value i), r).
Proof.
  intros Hm Hi Hf He Hr. destruct (int_digits i Hi) as [HD HP]. rewrite <- !app_assoc. unfold read_number.
  assert (HM : read_minus (m ++ i ++ f ++ e ++ r) = (negb (is_nil m), i ++ f ++ e ++ r)).
  { unfold read_minus. destruct Hm as [-> | ->]; [|reflexivity]. cbn [app]. destruct i as [|c i]; [discriminate|]. cbn [app].
    rewrite (proj2 (N.eqb_neq c 45)); [reflexivity|]. inversion HD as [|? ? Hc _]; subst. unfold digit in Hc. lia. }
  rewrite HM. rewrite span_digits; [|exact HD|].
  2:{ destruct Hf as [|ds HDs]; [|reflexivity]. cbn [app]. destruct He as [|c sign ds Hc _ _]; [|destruct Hc as [-> | ->]; reflexivity].
      cbn [app]. apply stops_digit. exact Hr. }
  rewrite HP. rewrite read_fraction_complete; [|exact Hf|].
  2:{ destruct He as [|c sign ds Hc _ _]; [|destruct Hc as [-> | ->]; (split; [discriminate|reflexivity])].
      pose proof (stops_digit r Hr) as HX. destruct r as [|c r]; [trivial|]. split; [|exact HX].
      cbn in Hr. unfold blank in Hr. lia. }
  rewrite read_exponent_complete by assumption. rewrite value_of_digits_spec. reflexivity.
Qed.

(** ** Values *)
(** How a value begins. *)
Definition begins (c : chr) : Prop :=
  c = 34 \/ c = 91 \/ c = 123 \/ c = 110 \/ c = 116 \/ c = 102 \/ c = 45 \/ digit c.
Lemma int_head i : int i -> exists c s, i = c :: s /\ digit c.
Proof. intros H. destruct H as [|c s Hc _]; eexists _, _; (split; [reflexivity|]); [split; vm_compute; discriminate|unfold digit; lia]. Qed.
Lemma value_head s v : value s v -> exists c s', s = c :: s' /\ begins c.
Proof.
  intros H. destruct H as [| | |i Hi|m i f e Hm Hi|s t (u & Hu & ->)| | | |].
  5:{ destruct Hm as [-> | ->].
      - destruct (int_head i Hi) as (c & s & -> & Hc). eexists _, _. split; [reflexivity|]. unfold begins. tauto.
      - eexists _, _. split; [reflexivity|]. unfold begins. cbn. tauto. }
  4:{ destruct (int_head i Hi) as (c & s & -> & Hc). eexists _, _. split; [reflexivity|]. unfold begins. tauto. }
  all: eexists _, _; (split; [reflexivity|]); unfold begins; cbn; tauto.
Qed.
Lemma begins_not c : begins c -> ~ blank c /\ c <> 93 /\ c <> 125 /\ c <> 44 /\ c <> 58.
Proof. unfold begins, blank, digit. lia. Qed.

Lemma strip_prefix_sound p s r : strip_prefix p s = Some r -> s = p ++ r.
Proof.
  revert s. induction p as [|c p IH]; intros s H; [injection H as <-; reflexivity|].
  destruct s as [|x s]; [discriminate|]. cbn [strip_prefix] in H.
  destruct (N.eqb_spec c x) as [->|]; [|discriminate]. cbn. f_equal. apply IH. exact H.
Qed.
Lemma strip_prefix_app p r : strip_prefix p (p ++ r) = Some r.
Proof. induction p as [|c p IH]; [destruct r; reflexivity|]. cbn. rewrite N.eqb_refl. exact IH. Qed.

Ltac take E := destruct E as [?|] eqn:?; [|discriminate].
Lemma read_sound : forall f,
  (forall s v r, read_value f s = Some (v, r) -> exists t, value t v /\ s = t ++ r) /\
  (forall s l r, read_elements f s = Some (l, r) -> exists t, elements t l /\ s = t ++ [93] ++ r) /\
  (forall s l r, read_members f s = Some (l, r) -> exists t, members t l /\ s = t ++ [125] ++ r).
Proof.
  induction f as [|f (IHv & IHe & IHm)]; [repeat split; intros; discriminate|]. split; [|split].
  - intros s v r H. cbn [read_value] in H. destruct s as [|c s']; [discriminate|].
    destruct (N.eqb_spec c 34) as [->|N1].
    { destruct (read_chars s') as [[t r']|] eqn:E; [|discriminate]. injection H as <- <-.
      destruct (read_chars_sound _ _ _ _ (le_n _) E) as (u & Hu & ->).
      exists (L """" ++ u ++ L """"). split; [apply value_string; exists u; auto|].
      change (L """") with [34]. rewrite <- !app_assoc. reflexivity. }
    destruct (N.eqb_spec c 91) as [->|N2].
    { destruct (skip_split s') as (b & Hb & Es). destruct (skip_blanks s') as [|x r'] eqn:Esk; [discriminate|].
      destruct (N.eqb_spec x 93) as [->|N3].
      - injection H as <- <-. exists (L "[" ++ b ++ L "]"). split; [apply value_empty_array; exact Hb|].
        rewrite Es. change (L "[") with [91]. change (L "]") with [93]. rewrite <- !app_assoc. reflexivity.
      - destruct (read_elements f (x :: r')) as [[l r'']|] eqn:E; [|discriminate]. injection H as <- <-.
        destruct (IHe _ _ _ E) as (t & Ht & Et). exists (L "[" ++ (b ++ t) ++ L "]"). split.
        + apply value_array. destruct Ht as [a s v b0 Ha Hv Hb0|a s v b0 s2 l Ha Hv Hb0 Hl].
          * rewrite app_assoc. apply elements_one; [apply Forall_app; auto|exact Hv|exact Hb0].
          * rewrite app_assoc. apply elements_more; [apply Forall_app; auto|exact Hv|exact Hb0|exact Hl].
        + rewrite Es, Et. change (L "[") with [91]. change (L "]") with [93]. rewrite <- !app_assoc. reflexivity. }
    destruct (N.eqb_spec c 123) as [->|N4].
    { destruct (skip_split s') as (b & Hb & Es). destruct (skip_blanks s') as [|x r'] eqn:Esk; [discriminate|].
      destruct (N.eqb_spec x 125) as [->|N3].
      - injection H as <- <-. exists (L "{" ++ b ++ L "}"). split; [apply value_empty_object; exact Hb|].
        rewrite Es. change (L "{") with [123]. change (L "}") with [125]. rewrite <- !app_assoc. reflexivity.
      - destruct (read_members f (x :: r')) as [[l r'']|] eqn:E; [|discriminate]. injection H as <- <-.
        destruct (IHm _ _ _ E) as (t & Ht & Et). exists (L "{" ++ (b ++ t) ++ L "}"). split.
        + apply value_object. destruct Ht as [a k key b0 c0 s v d Ha Hk Hb0 Hc0 Hv Hd|a k key b0 c0 s v d s2 l Ha Hk Hb0 Hc0 Hv Hd Hl].
          * rewrite app_assoc. apply members_one; auto. apply Forall_app; auto.
          * rewrite app_assoc. apply members_more; auto. apply Forall_app; auto.
        + rewrite Es, Et. change (L "{") with [123]. change (L "}") with [125]. rewrite <- !app_assoc. reflexivity. }
    assert (W : forall w x, read_word w x (c :: s') = Some (v, r) -> v = x /\ c :: s' = L w ++ r).
    { intros w x HW. unfold read_word in HW. destruct (strip_prefix (L w) (c :: s')) as [r'|] eqn:E; [|discriminate].
      injection HW as <- <-. split; [reflexivity|]. apply strip_prefix_sound. exact E. }
    destruct (c =? 110). { destruct (W _ _ H) as [-> E]. exists (L "null"). split; [constructor|exact E]. }
    destruct (c =? 116). { destruct (W _ _ H) as [-> E]. exists (L "true"). split; [constructor|exact E]. }
    destruct (c =? 102). { destruct (W _ _ H) as [-> E]. exists (L "false"). split; [constructor|exact E]. }
    exact (read_number_sound _ _ _ H).
  - intros s l r H. cbn [read_elements] in H.
    destruct (read_value f s) as [[v r1]|] eqn:E; [|discriminate]. destruct (IHv _ _ _ E) as (t & Ht & ->).
    destruct (skip_split r1) as (b & Hb & Es). destruct (skip_blanks r1) as [|x r2] eqn:Esk; [discriminate|].
    destruct (N.eqb_spec x 93) as [->|].
    + injection H as <- <-. exists ([] ++ t ++ b). split; [apply elements_one; [constructor|exact Ht|exact Hb]|].
      rewrite Es. cbn [app]. rewrite <- !app_assoc. reflexivity.
    + destruct (N.eqb_spec x 44) as [->|]; [|discriminate].
      destruct (skip_split r2) as (b2 & Hb2 & Es2).
      destruct (read_elements f (skip_blanks r2)) as [[l' r3]|] eqn:E2; [|discriminate]. injection H as <- <-.
      destruct (IHe _ _ _ E2) as (t2 & Ht2 & Et2). exists ([] ++ t ++ b ++ L "," ++ (b2 ++ t2)). split.
      * apply elements_more; [constructor|exact Ht|exact Hb|].
        destruct Ht2 as [a s v' b0 Ha Hv Hb0|a s v' b0 s2 l Ha Hv Hb0 Hl].
        -- rewrite app_assoc. apply elements_one; [apply Forall_app; auto|exact Hv|exact Hb0].
        -- rewrite app_assoc. apply elements_more; [apply Forall_app; auto|exact Hv|exact Hb0|exact Hl].
      * rewrite Es, Es2, Et2. cbn [app]. change (L ",") with [44]. rewrite <- !app_assoc. reflexivity.
  - intros s l r H. cbn [read_members] in H. destruct s as [|q s1]; [discriminate|].
    destruct (N.eqb_spec q 34) as [->|]; [|discriminate].
    destruct (read_chars s1) as [[k r1]|] eqn:EK; [|discriminate].
    destruct (read_chars_sound _ _ _ _ (le_n _) EK) as (u & Hu & ->).
    assert (Hq : quoted (L """" ++ u ++ L """") k) by (exists u; auto).
    destruct (skip_split r1) as (b & Hb & Es). destruct (skip_blanks r1) as [|x r2] eqn:Esk; [discriminate|].
    destruct (N.eqb_spec x 58) as [->|]; [|discriminate].
    destruct (skip_split r2) as (c & Hc & Es2).
    destruct (read_value f (skip_blanks r2)) as [[v r3]|] eqn:E; [|discriminate]. destruct (IHv _ _ _ E) as (t & Ht & Et).
    destruct (skip_split r3) as (d & Hd & Es3). destruct (skip_blanks r3) as [|y r4] eqn:Esk3; [discriminate|].
    destruct (N.eqb_spec y 125) as [->|].
    + injection H as <- <-. exists ([] ++ (L """" ++ u ++ L """") ++ b ++ L ":" ++ c ++ t ++ d). split.
      * apply members_one; auto. constructor.
      * rewrite Es, Es2, Et, Es3. cbn [app]. change (L """") with [34]. change (L ":") with [58].
        repeat (rewrite <- !app_assoc; cbn [app]). reflexivity.
    + destruct (N.eqb_spec y 44) as [->|]; [|discriminate].
      destruct (skip_split r4) as (b2 & Hb2 & Es4).
      destruct (read_members f (skip_blanks r4)) as [[l' r5]|] eqn:E2; [|discriminate]. injection H as <- <-.
      destruct (IHm _ _ _ E2) as (t2 & Ht2 & Et2).
      exists ([] ++ (L """" ++ u ++ L """") ++ b ++ L ":" ++ c ++ t ++ d ++ L "," ++ (b2 ++ t2)). split.
      * apply members_more; auto; [constructor|].
        destruct Ht2 as [a k' key b0 c0 s v' d0 Ha Hk Hb0 Hc0 Hv Hd0|a k' key b0 c0 s v' d0 s2 l Ha Hk Hb0 Hc0 Hv Hd0 Hl].
        -- rewrite app_assoc. apply members_one; auto. apply Forall_app; auto.
        -- rewrite app_assoc. apply members_more; auto. apply Forall_app; auto.
      * rewrite Es, Es2, Et, Es3, Es4, Et2. cbn [app]. change (L """") with [34]. change (L ":") with [58]. change (L ",") with [44].
        repeat (rewrite <- !app_assoc; cbn [app]). reflexivity.
Qed.

Lemma skip_begin a c s : blanks a -> begins c -> skip_blanks (a ++ c :: s) = c :: s.
Proof. intros Ha Hc. rewrite skip_app by exact Ha. apply skip_head. apply begins_not. exact Hc. Qed.

Lemma read_value_number c s f : c = 45 \/ digit c -> read_value (S f) (c :: s) = read_number (c :: s).
Proof.
  unfold digit. intros H. cbn [read_value].
  repeat match goal with |- context [c =? ?n] => rewrite (proj2 (N.eqb_neq c n)) by lia end. reflexivity.
Qed.
Lemma stops_after b c r : blanks b -> c = 44 \/ c = 93 \/ c = 125 -> stops (b ++ c :: r).
Proof. intros Hb Hc. destruct Hb as [|x b Hx Hb]; cbn; [right; exact Hc|left; exact Hx]. Qed.
Lemma skip_after b c r : blanks b -> c = 44 \/ c = 93 \/ c = 125 \/ c = 58 -> skip_blanks (b ++ c :: r) = c :: r.
Proof. intros Hb Hc. rewrite skip_app by exact Hb. apply skip_head. unfold blank. lia. Qed.
Lemma skip_value a s v r : blanks a -> value s v -> skip_blanks (a ++ s ++ r) = s ++ r.
Proof.
  intros Ha Hv. destruct (value_head s v Hv) as (c & s' & -> & Hc). cbn [app]. apply skip_begin; assumption.
Qed.
Lemma value_length s v : value s v -> (1 <= length s)%nat.
Proof. intros H. destruct (value_head s v H) as (c & s' & -> & _). cbn. lia. Qed.

Ltac lens := unfold str, chr in *; repeat first [rewrite app_length in * | progress cbn [List.length] in * ]; lia.
Lemma read_complete :
  (forall s v, value s v -> forall r f, stops r -> (2 * length (s ++ r) + 1 <= f)%nat ->
     read_value f (s ++ r) = Some (v, r)) /\
  (forall s l, elements s l -> forall r f, (2 * length (s ++ [93%N] ++ r) + 2 <= f)%nat ->
     (exists c s', skip_blanks (s ++ [93] ++ r) = c :: s' /\ c <> 93) /\
     read_elements f (skip_blanks (s ++ [93] ++ r)) = Some (l, r)) /\
  (forall s l, members s l -> forall r f, (2 * length (s ++ [125%N] ++ r) + 2 <= f)%nat ->
     (exists c s', skip_blanks (s ++ [125] ++ r) = c :: s' /\ c <> 125) /\
     read_members f (skip_blanks (s ++ [125] ++ r)) = Some (l, r)).
Proof.
  apply json_text_ind.
  - intros r f _ Hf. destruct f as [|f]; [lia|]. reflexivity.
  - intros r f _ Hf. destruct f as [|f]; [lia|]. reflexivity.
  - intros r f _ Hf. destruct f as [|f]; [lia|]. reflexivity.
  - intros i Hi r f Hr Hf. destruct f as [|f]; [lia|].
    pose proof (read_number_complete [] i [] [] r (or_introl eq_refl) Hi frac_none exp_none Hr) as E.
    cbn [app is_nil negb orb] in E. rewrite app_nil_r in E. rewrite <- E.
    destruct (int_head i Hi) as (c & s & -> & Hc). apply read_value_number. auto.
  - intros m i f0 e Hm Hi Hf0 He Hne r f Hr Hf. destruct f as [|f]; [lia|].
    pose proof (read_number_complete m i f0 e r Hm Hi Hf0 He Hr) as E.
    replace (negb (is_nil m) || negb (is_nil f0) || negb (is_nil e)) with true in E.
    2:{ symmetry. destruct m; [|reflexivity]. destruct f0; [|reflexivity]. destruct e; [|reflexivity].
        destruct Hne as [H|[H|H]]; contradiction. }
    rewrite <- E. destruct Hm as [-> | ->].
    + destruct (int_head i Hi) as (c & s & -> & Hc). apply read_value_number. auto.
    + apply read_value_number. left. reflexivity.
  - intros s t Hq r f _ Hf. destruct f as [|f]; [lia|]. destruct (read_quoted s t r Hq) as (u & -> & E & _).
    cbn [read_value]. rewrite E. reflexivity.
  - intros b Hb r f _ Hf. destruct f as [|f]; [lia|].
    change (L "[") with [91]. change (L "]") with [93]. rewrite <- !app_assoc. cbn [app read_value].
    rewrite skip_after by auto. reflexivity.
  - intros s l Hl IH r f _ Hf. destruct f as [|f]; [lia|].
    change (L "[") with [91] in *. change (L "]") with [93] in *. rewrite <- !app_assoc in Hf |- *.
    destruct (IH r f) as [(c & s' & E & Hc) E2]; [lens|].
    change ([91] ++ s ++ [93] ++ r) with (91 :: s ++ [93] ++ r). cbn [read_value].
    change (91 =? 34) with false. change (91 =? 91) with true. cbv iota.
    rewrite E. rewrite E in E2. rewrite (proj2 (N.eqb_neq c 93)) by exact Hc. rewrite E2. reflexivity.
  - intros b Hb r f _ Hf. destruct f as [|f]; [lia|].
    change (L "{") with [123]. change (L "}") with [125]. rewrite <- !app_assoc. cbn [app read_value].
    rewrite skip_after by auto. reflexivity.
  - intros s l Hl IH r f _ Hf. destruct f as [|f]; [lia|].
    change (L "{") with [123] in *. change (L "}") with [125] in *. rewrite <- !app_assoc in Hf |- *.
    destruct (IH r f) as [(c & s' & E & Hc) E2]; [lens|].
    change ([123] ++ s ++ [125] ++ r) with (123 :: s ++ [125] ++ r). cbn [read_value].
    change (123 =? 34) with false. change (123 =? 91) with false. change (123 =? 123) with true. cbv iota.
    rewrite E. rewrite E in E2. rewrite (proj2 (N.eqb_neq c 125)) by exact Hc. rewrite E2. reflexivity.
  - intros a s v b Ha Hv IH Hb r f Hf. rewrite <- !app_assoc in Hf |- *. rewrite (skip_value a s v) by assumption. split.
    + destruct (value_head s v Hv) as (c & s' & -> & Hc). eexists c, _. split; [reflexivity|]. apply begins_not. exact Hc.
    + destruct f as [|f]; [lia|]. cbn [read_elements]. cbn [app] in *.
      unfold str, chr in *. rewrite (IH (b ++ 93 :: r) f); [|apply stops_after; auto|lens].
      rewrite skip_after by auto. reflexivity.
  - intros a s v b s' l Ha Hv IHv Hb Hl IHl r f Hf. unfold str, chr in *. change (L ",") with [44] in *. rewrite <- !app_assoc in Hf |- *.
    rewrite (skip_value a s v) by assumption. split.
    + destruct (value_head s v Hv) as (c & s2 & -> & Hc). eexists c, _. split; [reflexivity|]. apply begins_not. exact Hc.
    + destruct f as [|f]; [lia|]. cbn [read_elements]. cbn [app] in *. pose proof (value_length s v Hv).
      unfold str, chr in *. rewrite (IHv (b ++ 44 :: s' ++ 93 :: r) f); [|apply stops_after; auto|lens].
      rewrite skip_after by auto. change (44 =? 93) with false. change (44 =? 44) with true. cbv iota.
      destruct (IHl r f) as [_ E]; [lens|]. rewrite E. reflexivity.
  - intros a k key b c s v d Ha Hk Hb Hc Hv IH Hd r f Hf. unfold str, chr in *. change (L ":") with [58] in *. rewrite <- !app_assoc in Hf |- *.
    destruct (read_quoted k key (b ++ [58] ++ c ++ s ++ d ++ [125] ++ r) Hk) as (u & E & E2 & _). unfold str, chr in *. rewrite E.
    rewrite skip_app by exact Ha. rewrite skip_head by (unfold blank; lia).
    split; [exists 34, u; split; [reflexivity|discriminate]|].
    destruct f as [|f]; [lia|]. cbn [read_members]. change (34 =? 34) with true. cbv iota. rewrite E2. cbn [app] in *.
    rewrite skip_after by auto. change (58 =? 58) with true. cbv iota. rewrite (skip_value c s v) by assumption.
    unfold str, chr in *. rewrite (IH (d ++ 125 :: r) f); [|apply stops_after; auto|lens].
    rewrite skip_after by auto. reflexivity.
  - intros a k key b c s v d s' l Ha Hk Hb Hc Hv IH Hd Hl IHl r f Hf. unfold str, chr in *.
    change (L ":") with [58] in *. change (L ",") with [44] in *. rewrite <- !app_assoc in Hf |- *.
    destruct (read_quoted k key (b ++ [58] ++ c ++ s ++ d ++ [44] ++ s' ++ [125] ++ r) Hk) as (u & E & E2 & _). unfold str, chr in *. rewrite E.
    rewrite skip_app by exact Ha. rewrite skip_head by (unfold blank; lia).
    split; [exists 34, u; split; [reflexivity|discriminate]|].
    destruct f as [|f]; [lia|]. cbn [read_members]. change (34 =? 34) with true. cbv iota. rewrite E2. cbn [app] in *.
    rewrite skip_after by auto. change (58 =? 58) with true. cbv iota. rewrite (skip_value c s v) by assumption.
    unfold str, chr in *. rewrite (IH (d ++ 44 :: s' ++ 125 :: r) f); [|apply stops_after; auto|lens].
    rewrite skip_after by auto. change (44 =? 125) with false. change (44 =? 44) with true. cbv iota.
    destruct (IHl r f) as [_ E3]; [lens|]. rewrite E3. reflexivity.
Qed.

Theorem read_json_spec s v : read_json s = Some v <-> json_document s v.
Proof.
  unfold read_json. split.
  - destruct (read_value (2 * length s + 1) (skip_blanks s)) as [[v' r]|] eqn:E; [|discriminate].
    destruct (proj1 (read_sound _) _ _ _ E) as (t & Ht & Et).
    destruct (skip_blanks r) as [|x r'] eqn:Er; [|discriminate]. cbn [is_nil]. intros E'; injection E' as <-.
    destruct (skip_split s) as (a & Ha & Es). exists a, t, r. repeat split; [exact Ha|exact Ht|apply skip_nil; exact Er|].
    rewrite Es at 1. rewrite Et. reflexivity.
  - intros (a & t & b & Ha & Ht & Hb & ->). rewrite (skip_value a t v) by assumption.
    assert (Hs : stops b) by (destruct Hb as [|c b Hc _]; cbn; [trivial|left; exact Hc]).
    rewrite (proj1 read_complete t v Ht b _ Hs) by lens. rewrite skip_blanks_all by exact Hb. reflexivity.
Qed.

(** ** Writing *)
Lemma escape_chars c s t : chars s t -> chars (escape_char c ++ s) (c :: t).
Proof.
  intros H. unfold escape_char.
  assert (S : forall e, In (e, c) short_escapes -> forall x, L e = [x] -> chars ([BACKSLASH; x] ++ s) (c :: t)).
  { intros e Hin x Hx. change ([BACKSLASH; x] ++ s) with (L "\" ++ [x] ++ s). rewrite <- Hx. apply chars_short; assumption. }
  destruct (N.eqb_spec c 34) as [->|E1]; [apply (S """"%string); cbn; tauto|].
  destruct (N.eqb_spec c 92) as [->|E2]; [apply (S "\"%string); cbn; tauto|].
  destruct (N.eqb_spec c 8) as [->|E3]; [apply (S "b"%string); cbn; tauto|].
  destruct (N.eqb_spec c 9) as [->|E4]; [apply (S "t"%string); cbn; tauto|].
  destruct (N.eqb_spec c 10) as [->|E5]; [apply (S "n"%string); cbn; tauto|].
  destruct (N.eqb_spec c 12) as [->|E6]; [apply (S "f"%string); cbn; tauto|].
  destruct (N.eqb_spec c 13) as [->|E7]; [apply (S "r"%string); cbn; tauto|].
  destruct (N.ltb_spec c 32) as [Lt|Ge].
  - change ([BACKSLASH; 117; 48; 48; SerdeJson.hex_digit (c / 16); SerdeJson.hex_digit (c mod 16)] ++ s)
      with (L "\u" ++ [48; 48; SerdeJson.hex_digit (c / 16); SerdeJson.hex_digit (c mod 16)] ++ s).
    assert (HD : forall n, n < 16 -> hex (SerdeJson.hex_digit n) n).
    { intros x Hx. unfold SerdeJson.hex_digit. destruct (N.ltb_spec x 10); [apply hex_digit; assumption|].
      replace (87 + x) with (97 + (x - 10)) by lia. apply hex_lower. lia. }
    apply chars_unicode; [|lia|exact H].
    assert (Q : c = 0 * 16 ^ 3 + 0 * 16 ^ 2 + c / 16 * 16 + c mod 16) by lia. rewrite Q at 3.
    apply hexes_4; [exact (hex_digit 0 ltac:(lia))|exact (hex_digit 0 ltac:(lia))|apply HD; lia|apply HD; lia].
  - apply chars_plain; assumption.
Qed.
Lemma write_quoted s : quoted (write_string s) s.
Proof.
  exists (flat_map escape_char s). split; [|reflexivity].
  induction s as [|c s IH]; [constructor|]. cbn [flat_map]. apply escape_chars. exact IH.
Qed.
Lemma show_digits_head fuel : forall n acc, n <> 0 -> n < 2 ^ N.of_nat fuel ->
  exists c s, show_digits fuel n acc = c :: s /\ c <> 48.
Proof.
  induction fuel as [|f IH]; intros n acc H0 Hn; [cbn in Hn; lia|]. cbn [show_digits].
  destruct (N.eqb_spec (n / 10) 0) as [E|E]; [eexists _, _; split; [reflexivity|lia]|].
  apply IH; [exact E|]. rewrite Nat2N.inj_succ, N.pow_succ_r' in Hn. lia.
Qed.
Lemma show_int n : int (show_N n) /\ decimal_value (show_N n) = n.
Proof.
  destruct (show_N_spec n) as [Hne [HD HV]].
  assert (E : decimal_value (show_N n) = n).
  { rewrite <- HV at 2. rewrite <- value_of_digits_spec. reflexivity. }
  split; [|exact E]. apply plain_int_sound; [apply digits_forallb; exact HD|].
  destruct (N.eq_dec n 0) as [->|Hn]; [reflexivity|].
  destruct (show_digits_head _ n [] Hn (size_bound n)) as (c & s & Es & Hc).
  fold (show_N n) in Es. rewrite Es. cbn [plain_int]. rewrite (proj2 (N.eqb_neq c 48)) by exact Hc. reflexivity.
Qed.

Fixpoint json_rect' (P : json -> Prop) (f0 : P JNull) (f1 : forall b, P (JBool b)) (f2 : forall n, P (JNum n))
  (f3 : P JOtherNum) (f4 : forall s, P (JStr s)) (f5 : forall l, Forall P l -> P (JArr l))
  (f6 : forall l, Forall (fun e => P (snd e)) l -> P (JObj l)) (v : json) : P v :=
  match v with
  | JNull => f0 | JBool b => f1 b | JNum n => f2 n | JOtherNum => f3 | JStr s => f4 s
  | JArr l => f5 l ((fix go l : Forall P l := match l with
                                              | [] => Forall_nil _
                                              | x :: l' => Forall_cons _ (json_rect' P f0 f1 f2 f3 f4 f5 f6 x) (go l')
                                              end) l)
  | JObj l => f6 l ((fix go l : Forall (fun e => P (snd e)) l :=
                       match l with
                       | [] => Forall_nil _
                       | x :: l' => Forall_cons x (json_rect' P f0 f1 f2 f3 f4 f5 f6 (snd x)) (go l')
                       end) l)
  end.

(** Values with natural numbers only. *)
Fixpoint plain (v : json) : Prop :=
  match v with
  | JOtherNum => False
  | JArr l => fold_right (fun x P => plain x /\ P) True l
  | JObj l => fold_right (fun e P => plain (snd e) /\ P) True l
  | _ => True
  end.
Lemma plain_arr l : plain (JArr l) <-> Forall plain l.
Proof.
  cbn [plain]. induction l as [|x l IH]; cbn; [split; auto|]. rewrite IH.
  split; [intros []; constructor; assumption|intros H; inversion H; auto].
Qed.
Lemma plain_obj l : plain (JObj l) <-> Forall (fun e => plain (snd e)) l.
Proof.
  cbn [plain]. induction l as [|x l IH]; cbn; [split; auto|]. rewrite IH.
  split; [intros []; constructor; assumption|intros H; inversion H; auto].
Qed.

Lemma new_line_blanks n : blanks (new_line n).
Proof.
  constructor; [right; right; left; reflexivity|]. apply Forall_forall. intros x Hx. apply repeat_spec in Hx. left. exact Hx.
Qed.
Lemma join_elements (w : json -> str) a b l : l <> [] -> blanks a -> blanks b ->
  Forall (fun x => value (w x) x) l -> elements (join (L ",") (map (fun x => a ++ w x) l) ++ b) l.
Proof.
  intros Hne Ha Hb H. induction H as [|x l Hx Hl IH]; [contradiction|].
  destruct l as [|y l].
  - cbn [map join]. rewrite <- app_assoc. apply elements_one; assumption.
  - change (join (L ",") (map (fun x => a ++ w x) (x :: y :: l)))
      with ((a ++ w x) ++ L "," ++ join (L ",") (map (fun x => a ++ w x) (y :: l))).
    rewrite <- !app_assoc. apply (elements_more a (w x) x []); auto; [constructor|]. apply IH. discriminate.
Qed.
Lemma join_members (w : json -> str) a b l : l <> [] -> blanks a -> blanks b ->
  Forall (fun e => value (w (snd e)) (snd e)) l ->
  members (join (L ",") (map (fun e => a ++ write_string (fst e) ++ L ": " ++ w (snd e)) l) ++ b) l.
Proof.
  intros Hne Ha Hb H. induction H as [|[k x] l Hx Hl IH]; [contradiction|].
  assert (HB : blanks (L " ")) by (constructor; [left; reflexivity|constructor]).
  change (L ": ") with (L ":" ++ L " ") in *.
  destruct l as [|y l].
  - cbn [map join fst snd]. rewrite <- !app_assoc.
    apply (members_one a (write_string k) k [] (L " ") (w x) x b); auto; [apply write_quoted|constructor].
  - change (join (L ",") (map (fun e => a ++ write_string (fst e) ++ (L ":" ++ L " ") ++ w (snd e)) ((k, x) :: y :: l)))
      with ((a ++ write_string k ++ (L ":" ++ L " ") ++ w x) ++ L "," ++
            join (L ",") (map (fun e => a ++ write_string (fst e) ++ (L ":" ++ L " ") ++ w (snd e)) (y :: l))).
    rewrite <- !app_assoc.
    apply (members_more a (write_string k) k [] (L " ") (w x) x []); auto; [apply write_quoted|constructor|constructor|].
    apply IH. discriminate.
Qed.
Lemma write_value : forall v level, plain v -> value (write_json level v) v.
Proof.
  intros v. induction v as [| | | | |l IH|l IH] using json_rect'; intros level Hp.
  - constructor.
  - destruct b; constructor.
  - cbn [write_json]. destruct (show_int n) as [H1 H2]. rewrite <- H2 at 2. apply value_natural. exact H1.
  - destruct Hp.
  - apply value_string. apply write_quoted.
  - apply plain_arr in Hp. destruct l as [|x l].
    { apply (value_empty_array []). constructor. }
    change (write_json level (JArr (x :: l))) with
      (L "[" ++ join (L ",") (map (fun x => new_line (S level) ++ write_json (S level) x) (x :: l)) ++
       new_line level ++ L "]").
    rewrite (app_assoc _ (new_line level)). apply value_array. apply join_elements; try apply new_line_blanks; [discriminate|].
    rewrite Forall_forall in *. intros y Hy. apply IH; [exact Hy|apply Hp; exact Hy].
  - apply plain_obj in Hp. destruct l as [|x l].
    { apply (value_empty_object []). constructor. }
    change (write_json level (JObj (x :: l))) with
      (L "{" ++ join (L ",") (map (fun e => new_line (S level) ++ write_string (fst e) ++ L ": " ++
                                            write_json (S level) (snd e)) (x :: l)) ++
       new_line level ++ L "}").
    rewrite (app_assoc _ (new_line level)). apply value_object. apply join_members; try apply new_line_blanks; [discriminate|].
    rewrite Forall_forall in *. intros y Hy. apply IH; [exact Hy|apply Hp; exact Hy].
Qed.

Theorem write_document v : plain v -> json_document (write_json 0 v) v.
Proof.
  intros Hp. exists [], (write_json 0 v), []. split; [constructor|]. split; [apply write_value; exact Hp|].
  split; [constructor|]. rewrite app_nil_r. reflexivity.
Qed.
Theorem document_unique s v v' : json_document s v -> json_document s v' -> v = v'.
Proof. rewrite <- !read_json_spec. congruence. Qed.

(** ** What /repo writes is plain *)
Lemma plain_jlist {A} (f : A -> json) l : (forall a, plain (f a)) -> plain (jlist f l).
Proof. intros H. apply plain_arr. apply Forall_forall. intros x Hx. apply in_map_iff in Hx. destruct Hx as (a & <- & _). apply H. Qed.
Lemma plain_jmap {A} (f : A -> json) l : (forall a, plain (f a)) -> plain (jmap f l).
Proof.
  intros H. apply plain_obj. apply Forall_forall. intros x Hx. apply in_map_iff in Hx. destruct Hx as (a & <- & _). apply H.
Qed.
Lemma plain_strs l : plain (jlist JStr l).
Proof. apply plain_jlist. intros a. exact I. Qed.
Lemma plain_location l : plain (json_location l).
Proof. destruct l as [f [[n|n c|s]|]]; cbn; auto 10. Qed.
Lemma plain_title (o : option str) : plain (jopt JStr o).
Proof. destruct o; exact I. Qed.
Ltac plains :=
  repeat match goal with
         | |- plain (JObj ((_, _) :: _)) => split
         | |- plain (JArr (_ :: _)) => split
         | |- fold_right _ True (_ :: _) => split
         | |- fold_right _ True [] => exact I
         | |- plain (json_location _) => apply plain_location
         | |- plain (jopt JStr _) => apply plain_title
         | |- plain (jlist JStr _) => apply plain_strs
         | |- plain (snd (_, _)) => cbn [snd]
         | |- True => exact I
         | |- plain (JStr _) => exact I
         | |- plain (JBool _) => exact I
         | |- plain (JNum _) => exact I
         end.
Lemma plain_reference r : plain (json_reference r).
Proof. unfold json_reference. plains. Qed.
Lemma plain_requirement r : plain (json_requirement r).
Proof.
  unfold json_requirement. plains; try (apply plain_jlist; exact plain_reference). apply plain_jmap. intros a. exact I.
Qed.
Lemma plain_error e : plain (json_error e).
Proof. destruct e; unfold json_error, variant, json_relation_fields; plains; try apply plain_requirement; exact I. Qed.
Lemma plain_artefact a : plain (json_artefact a).
Proof. unfold json_artefact. plains; [apply plain_jmap; exact plain_requirement|apply plain_jlist; exact plain_error]. Qed.
Lemma plain_coverage c : plain (json_coverage c).
Proof. unfold json_coverage. plains. Qed.
Lemma plain_traced_relation t : plain (json_traced_relation t).
Proof. unfold json_traced_relation, json_relation_fields. cbn [app]. plains. apply plain_jlist. exact plain_coverage. Qed.
Lemma plain_trace t : plain (json_trace t).
Proof.
  unfold json_trace, json_traced_graph. plains.
  - apply plain_jmap. exact plain_artefact.
  - apply plain_jlist. exact plain_traced_relation.
  - apply plain_jmap. exact plain_strs.
  - apply plain_jlist. exact plain_error.
Qed.
Lemma plain_parse {US : UnstableSort} reqs errs : plain (json_requirements reqs errs).
Proof.
  unfold json_requirements. plains; apply plain_jlist; [exact plain_requirement|exact plain_error].
Qed.
