(** Facts about the text form of locations. *)
From Coq Require Import ZArith ZifyN.
From Verif Require Import Base OMap Models Unicode Regex MdLex MdSyntax MdLexFacts Location.
Open Scope N_scope.
Ltac Zify.zify_post_hook ::= Z.div_mod_to_equations.

(** ** Decimal numbers *)
Definition value_from (acc : N) (d : str) : N := fold_left (fun a c => 10 * a + (c - 48)) d acc.
(** [d] is the decimal text of [n] (leading zeros allowed) *)
Definition decimal (d : str) (n : N) : Prop := forallb is_digit_ascii d = true /\ value_from 0 d = n.

Lemma value_from_ge d : forall acc, acc <= value_from acc d.
Proof.
  induction d as [|c d IH]; intros acc; cbn [value_from fold_left]; [lia|].
  etransitivity; [|apply IH]. lia.
Qed.

Lemma value_from_snoc acc d c : value_from acc (d ++ [c]) = 10 * value_from acc d + (c - 48).
Proof. unfold value_from. rewrite fold_left_app. reflexivity. Qed.

Lemma parse_digits_ok d : forall acc n, acc < USIZE ->
  parse_digits d acc = inl n <-> forallb is_digit_ascii d = true /\ value_from acc d = n /\ n < USIZE.
Proof.
  induction d as [|c d IH]; intros acc n Ha; cbn [parse_digits forallb value_from fold_left].
  - split; [intros H; inversion H; subst; auto|]. intros (_ & -> & _). reflexivity.
  - destruct (is_digit_ascii c); cbn [andb]; [|split; [discriminate|intros [H _]; discriminate]].
    destruct (N.ltb_spec (10 * acc + (c - 48)) USIZE) as [Hlt|Hge].
    + apply IH. exact Hlt.
    + split; [discriminate|]. intros (_ & H1 & H2).
      pose proof (value_from_ge d (10 * acc + (c - 48))) as H. unfold value_from in H, H1. lia.
Qed.

Lemma parse_digits_decimal d n : parse_digits d 0 = inl n <-> decimal d n /\ n < USIZE.
Proof. rewrite parse_digits_ok by (unfold USIZE; lia). unfold decimal. tauto. Qed.

Lemma show_digits_spec fuel : forall n acc,
  n < 2 ^ N.of_nat fuel -> 0 < N.of_nat fuel ->
  exists d, show_digits fuel n acc = d ++ acc /\ d <> [] /\ decimal d n.
Proof.
  induction fuel as [|f IH]; intros n acc Hn Hf; [lia|]. cbn [show_digits].
  assert (D : is_digit_ascii (48 + n mod 10) = true)
    by (unfold is_digit_ascii; apply andb_true_iff; split; apply N.leb_le; lia).
  destruct (N.eqb_spec (n / 10) 0) as [E|E].
  - exists [48 + n mod 10]. split; [reflexivity|]. split; [discriminate|]. split.
    + cbn [forallb]. rewrite D. reflexivity.
    + unfold value_from. cbn [fold_left]. lia.
  - assert (Hp : N.of_nat (S f) = N.succ (N.of_nat f)) by lia.
    rewrite Hp, N.pow_succ_r' in Hn.
    assert (Hf' : f <> O).
    { intros ->. cbn in Hn. lia. }
    destruct (IH (n / 10) ((48 + n mod 10) :: acc)) as (d & H1 & H2 & H3 & H4); [lia|lia|].
    exists (d ++ [48 + n mod 10]). rewrite H1, <- app_assoc. split; [reflexivity|].
    split; [destruct d; discriminate|]. split.
    + rewrite forallb_app, H3. cbn [forallb]. rewrite D. reflexivity.
    + rewrite value_from_snoc, H4. lia.
Qed.

Lemma size_bound n : n < 2 ^ N.of_nat (S (N.size_nat n)).
Proof.
  assert (H : N.of_nat (N.size_nat n) = N.size n).
  { destruct n as [|q]; [reflexivity|]. cbn [N.size_nat N.size].
    induction q as [q IH|q IH|]; cbn [Pos.size_nat Pos.size]; [lia|lia|reflexivity]. }
  rewrite Nat2N.inj_succ, H, N.pow_succ_r'. pose proof (N.size_gt n). lia.
Qed.

Lemma show_N_spec n : show_N n <> [] /\ decimal (show_N n) n.
Proof.
  unfold show_N. destruct (show_digits_spec (S (N.size_nat n)) n [] (size_bound n)) as (d & -> & H1 & H2); [lia|].
  rewrite app_nil_r. auto.
Qed.

Lemma show_N_inj n m : show_N n = show_N m -> n = m.
Proof.
  intros E. destruct (show_N_spec n) as [_ [_ H1]], (show_N_spec m) as [_ [_ H2]].
  rewrite <- H1, <- H2, E. reflexivity.
Qed.

Lemma classic_nl (s : str) : In NL s \/ ~ In NL s.
Proof. destruct (in_dec N.eq_dec NL s); auto. Qed.

(** ** Splitting a text into file, line and column *)
Section Split.
  Context {U : UnicodeTables}.

  (** A nonempty sequence of digits (of any script). *)
  Definition number (d : str) : Prop := d <> [] /\ forallb is_nd d = true.
  (** `:line:column` *)
  Definition pos_text (l c : option str) : str :=
    match l with
    | None => []
    | Some d => COLON :: d ++ match c with None => [] | Some e => COLON :: e end
    end.
  Definition positions (l c : option str) : Prop :=
    match l, c with
    | None, None => True
    | Some d, None => number d
    | Some d, Some e => number d /\ number e
    | None, Some _ => False
    end.
  Definition splits (s f : str) (l c : option str) : Prop :=
    s = f ++ pos_text l c /\ f <> [] /\ positions l c.
  (** With the shortest possible file name. *)
  Definition splits_best (s f : str) (l c : option str) : Prop :=
    splits s f l c /\ forall f' l' c', splits s f' l' c' -> (length f <= length f')%nat.

  Lemma nd_ascii_false c : c < 128 -> is_digit_ascii c = false -> is_nd c = false.
  Proof. intros H1 H2. rewrite is_nd_ascii by exact H1. exact H2. Qed.
  Lemma nd_colon : is_nd COLON = false. Proof. apply nd_ascii_false; reflexivity. Qed.
  Lemma nd_nl : is_nd NL = false. Proof. apply nd_ascii_false; reflexivity. Qed.

  Definition scan_pos (r : str) : option (option str * option str) :=
    match r with
    | [] => Some (None, None)
    | x :: r' =>
        if x =? COLON then
          match span is_nd r' with
          | ([], _) => None
          | (d, []) => Some (Some d, None)
          | (d, y :: r2) =>
              if y =? COLON then
                match span is_nd r2 with
                | ([], _) => None
                | (e, []) => Some (Some d, Some e)
                | (_, _ :: _) => None
                end
              else None
          end
        else None
    end.

  Lemma span_number d r :
    forallb is_nd d = true -> match r with [] => True | c :: _ => is_nd c = false end ->
    span is_nd (d ++ r) = (d, r).
  Proof. intros H1 H2. apply span_app; [exact H1|]. destruct r; auto. Qed.

  Lemma scan_pos_spec r l c : scan_pos r = Some (l, c) <-> r = pos_text l c /\ positions l c.
  Proof.
    split.
    - unfold scan_pos. destruct r as [|x r']; [intros H; inversion H; subst; cbn; auto|].
      destruct (N.eqb_spec x COLON) as [->|]; [|discriminate].
      pose proof (span_eq is_nd r') as E1. pose proof (span_all is_nd r') as A1.
      destruct (span is_nd r') as [d r1]. cbn [fst snd] in *. destruct d as [|d0 d]; [discriminate|].
      destruct r1 as [|y r2].
      + intros H; inversion H; subst. cbn [pos_text positions]. split; [reflexivity|].
        split; [discriminate|exact A1].
      + destruct (N.eqb_spec y COLON) as [->|]; [|discriminate].
        pose proof (span_eq is_nd r2) as E2. pose proof (span_all is_nd r2) as A2.
        destruct (span is_nd r2) as [e r3]. cbn [fst snd] in *. destruct e as [|e0 e]; [discriminate|].
        destruct r3; [|discriminate]. intros H; inversion H; subst. cbn [pos_text positions].
        rewrite app_nil_r. split; [reflexivity|]. split; (split; [discriminate|assumption]).
    - intros [-> H]. destruct l as [d|]; destruct c as [e|]; cbn [positions pos_text] in *; try contradiction.
      + destruct H as [[D1 D2] [E1 E2]]. cbn [scan_pos]. rewrite N.eqb_refl, span_number by (auto using nd_colon).
        destruct d as [|d0 d]; [elim D1; reflexivity|]. rewrite N.eqb_refl.
        rewrite <- (app_nil_r e), span_number by auto. destruct e; [elim E1; reflexivity|].
        rewrite app_nil_r. reflexivity.
      + destruct H as [D1 D2]. cbn [scan_pos]. rewrite N.eqb_refl, span_number by auto.
        destruct d; [elim D1; reflexivity|reflexivity].
      + reflexivity.
  Qed.

  Lemma num_spec n pos w caps k :
    (forall pos c w caps, is_nd c = true -> k (mkMst pos (c :: w) caps) = None) ->
    bm (Grp n (Plus true (Cls is_nd))) (mkMst pos w caps) k =
    match span is_nd w with
    | ([], _) => None
    | (d, r) => k (mkMst (pos + length d) r ((n, d) :: caps))
    end.
  Proof.
    intros Hk. unfold Plus. cbn [bm m_rest m_pos m_caps].
    destruct w as [|c w]; [reflexivity|]. cbn [span]. destruct (is_nd c) eqn:E1; [|reflexivity].
    pose proof (span_eq is_nd w) as Heq. pose proof (span_all is_nd w) as Hall.
    pose proof (span_stop is_nd w) as Hstop.
    destruct (span is_nd w) as [a b] eqn:Es. cbn [fst snd] in *.
    match goal with
    | |- ?lhs = _ =>
      change lhs with
        (bm (Star true (Cls is_nd)) (mkMst (S pos) w caps)
           (fun s' => k (mkMst (m_pos s') (m_rest s')
              ((n, firstn (m_pos s' - pos) (c :: w)) :: m_caps s'))))
    end.
    rewrite bm_star_greedy. cbn [m_pos m_rest m_caps]. rewrite <- Heq.
    rewrite greedy_max.
    - cbn [m_pos m_rest m_caps length]. f_equal. f_equal; [lia|]. f_equal. f_equal.
      change (c :: a ++ b) with ((c :: a) ++ b). apply firstn_len_app. cbn [length]. lia.
    - exact Hall.
    - destruct b as [|x b]; [exact I|]. apply (Hstop x b). reflexivity.
    - intros. cbn [m_pos m_rest m_caps]. apply Hk. assumption.
  Qed.

  Definition col_end (s : mst) : option mst :=
    bm (Seq (Opt (Seq (Chr COLON) (Grp 3 (Plus true (Cls is_nd))))) Eol) s Some.
  Definition pos_end (s : mst) : option mst :=
    bm (Seq (Opt (Seq (Chr COLON) (Grp 2 (Plus true (Cls is_nd)))))
         (Seq (Opt (Seq (Chr COLON) (Grp 3 (Plus true (Cls is_nd))))) Eol)) s Some.
  Definition pos_caps (l c : option str) : list (nat * str) :=
    match c with Some e => [(3%nat, e)] | None => [] end ++
    match l with Some d => [(2%nat, d)] | None => [] end.
  Definition at_eol (s : mst) : option mst := match m_rest s with [] => Some s | _ => None end.

  Lemma col_end_spec pos r caps :
    col_end (mkMst pos r caps) =
    match r with
    | [] => Some (mkMst pos r caps)
    | x :: r' =>
        if x =? COLON then
          match span is_nd r' with
          | ([], _) => None
          | (e, []) => Some (mkMst (pos + S (length e)) [] ((3%nat, e) :: caps))
          | (_, _ :: _) => None
          end
        else None
    end.
  Proof.
    change (col_end (mkMst pos r caps)) with
      (orelse (bm (Chr COLON) (mkMst pos r caps) (fun s => bm (Grp 3 (Plus true (Cls is_nd))) s at_eol))
              (at_eol (mkMst pos r caps))).
    rewrite chr_spec. destruct r as [|x r']; [reflexivity|].
    destruct (x =? COLON); [|reflexivity].
    rewrite num_spec by reflexivity. unfold at_eol. cbn [m_rest].
    destruct (span is_nd r') as [[|e0 e] [|y r2]]; try reflexivity.
    cbn [orelse length]. do 2 f_equal. lia.
  Qed.

  Lemma pos_end_spec pos r caps :
    pos_end (mkMst pos r caps) =
    match scan_pos r with
    | Some (l, c) => Some (mkMst (pos + length r) [] (pos_caps l c ++ caps))
    | None => None
    end.
  Proof.
    change (pos_end (mkMst pos r caps)) with
      (orelse (bm (Chr COLON) (mkMst pos r caps) (fun s => bm (Grp 2 (Plus true (Cls is_nd))) s col_end))
              (col_end (mkMst pos r caps))).
    rewrite chr_spec. unfold scan_pos. destruct r as [|x r'].
    { cbn. rewrite Nat.add_0_r. reflexivity. }
    destruct (N.eqb_spec x COLON) as [->|Hx].
    2:{ rewrite col_end_spec. destruct (N.eqb_spec x COLON) as [E|]; [elim (Hx E)|]. reflexivity. }
    rewrite num_spec.
    2:{ intros p0 c w cs Hc. rewrite col_end_spec. destruct (N.eqb_spec c COLON) as [->|]; [|reflexivity].
        rewrite nd_colon in Hc. discriminate. }
    rewrite (col_end_spec pos (COLON :: r')). rewrite N.eqb_refl.
    pose proof (span_eq is_nd r') as Heq.
    destruct (span is_nd r') as [[|d0 d] r1]; [destruct r1; reflexivity|]. cbn [fst snd] in Heq.
    rewrite col_end_spec. destruct r1 as [|y r2].
    { cbn [orelse]. rewrite <- Heq. rewrite app_nil_r. cbn [pos_caps app length]. do 2 f_equal. lia. }
    destruct (y =? COLON); [|reflexivity].
    pose proof (span_eq is_nd r2) as Heq2.
    destruct (span is_nd r2) as [[|e0 e] [|z r3]]; cbn [fst snd] in Heq2; try reflexivity.
    cbn [orelse]. rewrite <- Heq, <- Heq2, app_nil_r. cbn [pos_caps app]. do 2 f_equal.
    cbn [length]. rewrite app_length. cbn [length]. lia.
  Qed.

  (** ** The regular expression *)
  Lemma scan_pos_no_nl r l c : scan_pos r = Some (l, c) -> ~ In NL r.
  Proof.
    intros H. apply scan_pos_spec in H. destruct H as [-> H].
    assert (G : forall d, number d -> ~ In NL d).
    { intros d [_ Hd] Hi. rewrite forallb_forall in Hd. specialize (Hd _ Hi). rewrite nd_nl in Hd. discriminate. }
    destruct l as [d|]; destruct c as [e|]; cbn [pos_text positions] in *; try contradiction; intros Hi.
    - destruct Hi as [Hi|Hi]; [discriminate|]. apply in_app_or in Hi. destruct Hi as [Hi|[Hi|Hi]].
      + exact (G d (proj1 H) Hi).
      + discriminate.
      + exact (G e (proj2 H) Hi).
    - destruct Hi as [Hi|Hi]; [discriminate|]. rewrite app_nil_r in Hi. exact (G d H Hi).
    - destruct Hi.
  Qed.

  Fixpoint scan_file (f r : str) : option (str * option str * option str) :=
    match scan_pos r with
    | Some (l, c) => Some (f, l, c)
    | None => match r with [] => None | x :: r' => scan_file (f ++ [x]) r' end
    end.

  Definition file_end (c0 : chr) (w : str) (s' : mst) : option mst :=
    pos_end (mkMst (m_pos s') (m_rest s') ((1%nat, firstn (m_pos s' - 0) (c0 :: w)) :: m_caps s')).

  Lemma lazy_scan c0 w r : forall f,
    c0 :: w = f ++ r -> forallb dot r = true ->
    match lazy_run dot (file_end c0 w) (length f) r [] with Some s => Some (m_caps s) | None => None end =
    match scan_file f r with
    | Some (f', l, c) => Some (pos_caps l c ++ [(1%nat, f')])
    | None => None
    end.
  Proof.
    assert (K : forall f r', c0 :: w = f ++ r' ->
      file_end c0 w (mkMst (length f) r' []) =
      match scan_pos r' with
      | Some (l, c) => Some (mkMst (length f + length r') [] (pos_caps l c ++ [(1%nat, f)]))
      | None => None
      end).
    { intros f r' E. unfold file_end. cbn [m_pos m_rest m_caps]. rewrite pos_end_spec.
      rewrite E, Nat.sub_0_r, firstn_len_app by reflexivity. reflexivity. }
    induction r as [|x r IH]; intros f E Hd; cbn [lazy_run scan_file].
    - rewrite (K f [] E). destruct (scan_pos []) as [[l c]|]; reflexivity.
    - rewrite (K f (x :: r) E). cbn [forallb] in Hd. apply andb_true_iff in Hd. destruct Hd as [D1 D2].
      destruct (scan_pos (x :: r)) as [[l c]|]; [reflexivity|]. cbn [orelse]. rewrite D1.
      rewrite <- (IH (f ++ [x])); [|rewrite <- app_assoc; exact E|exact D2].
      rewrite app_length. cbn [length]. rewrite Nat.add_1_r. reflexivity.
  Qed.

  Lemma location_captures s :
    captures LOCATION_RE s =
    match s with
    | [] => None
    | c :: w => if existsb (N.eqb NL) s then None
                else match scan_file [c] w with
                     | Some (f, l, k) => Some (pos_caps l k ++ [(1%nat, f)])
                     | None => None
                     end
    end.
  Proof.
    unfold captures, LOCATION_RE. rewrite search_bol. destruct s as [|c w]; [reflexivity|].
    match goal with
    | |- match ?lhs with _ => _ end = _ =>
      change lhs with (if dot c then bm (Star false (Cls dot)) (mkMst 1 w []) (file_end c w) else None)
    end.
    cbn [existsb].
    destruct (dot c) eqn:Ec.
    2:{ unfold dot in Ec. apply negb_false_iff, N.eqb_eq in Ec. subst c. reflexivity. }
    replace (N.eqb NL c) with false
      by (unfold dot in Ec; rewrite N.eqb_sym; destruct (N.eqb c NL); [discriminate|reflexivity]).
    cbn [orb]. rewrite bm_star_lazy. cbn [m_pos m_rest m_caps].
    destruct (existsb (N.eqb NL) w) eqn:E.
    - rewrite lazy_none; [reflexivity|]. intros a b Hw Ha. unfold file_end. cbn [m_pos m_rest m_caps].
      rewrite pos_end_spec. destruct (scan_pos b) as [[l k]|] eqn:Es; [|reflexivity]. exfalso.
      apply scan_pos_no_nl in Es. apply existsb_exists in E. destruct E as (x & Hx & Ex).
      apply N.eqb_eq in Ex. subst x. rewrite Hw in Hx. apply in_app_or in Hx. destruct Hx as [Hx|Hx]; [|exact (Es Hx)].
      rewrite forallb_forall in Ha. specialize (Ha _ Hx). discriminate.
    - apply (lazy_scan c w w [c] eq_refl). apply forallb_forall. intros x Hx. unfold dot.
      destruct (N.eqb_spec x NL) as [->|]; [|reflexivity].
      assert (existsb (N.eqb NL) w = true) by (apply existsb_exists; exists NL; auto). congruence.
  Qed.

  Lemma scan_file_total r : forall f, exists f' l c, scan_file f r = Some (f', l, c).
  Proof.
    induction r as [|x r IH]; intros f; cbn [scan_file].
    - cbn. eauto.
    - destruct (scan_pos (x :: r)) as [[l c]|]; eauto.
  Qed.

  Lemma scan_file_best s r : forall f f' l c,
    s = f ++ r -> f <> [] ->
    (forall g l' c', splits s g l' c' -> (length f <= length g)%nat) ->
    scan_file f r = Some (f', l, c) -> splits_best s f' l c.
  Proof.
    induction r as [|x r IH]; intros f f' l c E Hf Hmin H; cbn [scan_file] in H.
    - cbn in H. inversion H; subst. split; [|exact Hmin]. split; [reflexivity|]. split; [exact Hf|exact I].
    - destruct (scan_pos (x :: r)) as [[l0 c0]|] eqn:Es.
      + inversion H; subst f' l0 c0. apply scan_pos_spec in Es. destruct Es as [Ep Hp].
        split; [|exact Hmin]. split; [rewrite <- Ep; exact E|]. auto.
      + apply (IH (f ++ [x])) with (4 := H).
        * rewrite <- app_assoc. exact E.
        * destruct f; discriminate.
        * intros g l' c' Hs. pose proof (Hmin _ _ _ Hs) as Hle. rewrite app_length. cbn [length].
          destruct Hs as (Hg & _ & Hp).
          enough (length f <> length g) by lia. intros Hl.
          assert (Hfg : g = f /\ pos_text l' c' = x :: r).
          { rewrite E in Hg. clear -Hg Hl. revert g Hg Hl. induction f as [|y f IHf]; intros [|z g] Hg Hl; try discriminate.
            - split; [reflexivity|symmetry; exact Hg].
            - cbn [app] in Hg. inversion Hg; subst. destruct (IHf g) as [-> H]; auto. }
          destruct Hfg as [_ Hfg]. assert (HS : scan_pos (x :: r) = Some (l', c')).
          { apply scan_pos_spec. split; [symmetry; exact Hfg|exact Hp]. }
          congruence.
  Qed.

  Lemma splits_best_unique s f l c f' l' c' :
    splits_best s f l c -> splits_best s f' l' c' -> f = f' /\ l = l' /\ c = c'.
  Proof.
    intros [H1 M1] [H2 M2]. pose proof (M1 _ _ _ H2). pose proof (M2 _ _ _ H1).
    assert (Hl : length f = length f') by lia.
    destruct H1 as (E1 & _ & P1), H2 as (E2 & _ & P2). rewrite E1 in E2.
    assert (Hf : f = f' /\ pos_text l c = pos_text l' c').
    { clear -E2 Hl. revert f' E2 Hl. induction f as [|y f IHf]; intros [|z g] Hg Hl; try discriminate.
      - split; [reflexivity|exact Hg].
      - cbn [app] in Hg. inversion Hg; subst. destruct (IHf g) as [-> H]; auto. }
    destruct Hf as [-> Ht]. split; [reflexivity|].
    assert (X : scan_pos (pos_text l c) = Some (l, c)) by (apply scan_pos_spec; auto).
    assert (Y : scan_pos (pos_text l c) = Some (l', c')) by (apply scan_pos_spec; auto).
    rewrite X in Y. inversion Y. auto.
  Qed.

  (** What the parser makes of the parts. *)
  Definition read_parts (f : str) (l c : option str) : location + str :=
    match l with
    | None => inl (mkLocation f None)
    | Some d =>
        match parse_digits d 0 with
        | inr e => inr (L "Error parsing line " ++ d ++ L ": " ++ e)
        | inl n =>
            match c with
            | None => inl (mkLocation f (Some (Line n)))
            | Some d' =>
                match parse_digits d' 0 with
                | inr e => inr (L "Error parsing column " ++ d' ++ L ": " ++ e)
                | inl m => inl (mkLocation f (Some (LineAndColumn n m)))
                end
            end
        end
    end.

  Theorem parse_location_exact s :
    ((s = [] \/ In NL s) -> parse_location s = Done (inr (L "Invalid Location"))) /\
    (~ (s = [] \/ In NL s) ->
       exists f l c, splits_best s f l c /\ parse_location s = Done (read_parts f l c)).
  Proof.
    unfold parse_location. rewrite location_captures. split.
    - intros [->|H]; [reflexivity|]. destruct s as [|x w]; [destruct H|].
      assert (E : existsb (N.eqb NL) (x :: w) = true) by (apply existsb_exists; exists NL; auto).
      rewrite E. reflexivity.
    - intros H. destruct s as [|x w]; [elim H; auto|].
      destruct (existsb (N.eqb NL) (x :: w)) eqn:E.
      { exfalso. apply H. right. apply existsb_exists in E. destruct E as (y & Hy & Ey).
        apply N.eqb_eq in Ey. subst y. exact Hy. }
      destruct (scan_file_total w [x]) as (f & l & c & Es). rewrite Es.
      exists f, l, c. assert (B : splits_best (x :: w) f l c).
      { eapply (scan_file_best (x :: w) w [x]); [reflexivity|discriminate| |exact Es].
        intros g l' c' (_ & Hg & _). destruct g; [elim Hg; reflexivity|]. cbn. lia. }
      split; [exact B|].
      destruct l as [d|]; destruct c as [e|]; cbn [pos_caps app group Nat.eqb unwrap obind read_parts]; try reflexivity.
      all: destruct B as ((_ & _ & P) & _); destruct P.
  Qed.

  Theorem parse_location_ok s loc :
    parse_location s = Done (inl loc) <->
    ~ In NL s /\
    match loc_in_file loc with
    | None => splits_best s (loc_file loc) None None
    | Some (Line n) => exists d, splits_best s (loc_file loc) (Some d) None /\ decimal d n /\ n < USIZE
    | Some (LineAndColumn n m) =>
        exists d e, splits_best s (loc_file loc) (Some d) (Some e) /\
          (decimal d n /\ n < USIZE) /\ (decimal e m /\ m < USIZE)
    | Some (LocString _) => False
    end.
  Proof.
    destruct (parse_location_exact s) as [X1 X2].
    assert (B0 : forall f l c, splits_best s f l c -> s <> []).
    { intros f l c ((E & Hf & _) & _) ->. destruct f; [elim Hf; reflexivity|discriminate]. }
    split.
    - intros H. destruct (classic_nl s) as [Hn|Hn].
      { rewrite X1 in H by (right; exact Hn). discriminate. }
      assert (Hs : ~ (s = [] \/ In NL s)).
      { intros [->|]; [|auto]. rewrite X1 in H by (left; reflexivity). discriminate. }
      destruct (X2 Hs) as (f & l & c & B & E). rewrite E in H. split; [exact Hn|].
      unfold read_parts in H. destruct l as [d|].
      + destruct (parse_digits d 0) as [n|e] eqn:En; [|discriminate]. apply parse_digits_decimal in En.
        destruct c as [e|].
        * destruct (parse_digits e 0) as [m|] eqn:Em; [|discriminate]. apply parse_digits_decimal in Em.
          inversion H; subst. cbn [loc_in_file loc_file]. eauto 6.
        * inversion H; subst. cbn [loc_in_file loc_file]. eauto 6.
      + inversion H; subst. cbn [loc_in_file loc_file]. destruct c; [destruct B as ((_ & _ & []) & _)|exact B].
    - intros [Hn H]. destruct loc as [f i]. cbn [loc_in_file loc_file] in H.
      assert (Hs : s <> [] -> exists f l c, splits_best s f l c /\ parse_location s = Done (read_parts f l c))
        by (intros; apply X2; tauto).
      destruct i as [[n|n m|t]|].
      + destruct H as (d & B & Hd). destruct (Hs (B0 _ _ _ B)) as (f' & l & c & B' & E).
        destruct (splits_best_unique _ _ _ _ _ _ _ B B') as (<- & <- & <-). rewrite E. unfold read_parts.
        apply parse_digits_decimal in Hd. rewrite Hd. reflexivity.
      + destruct H as (d & e & B & Hd & He). destruct (Hs (B0 _ _ _ B)) as (f' & l & c & B' & E).
        destruct (splits_best_unique _ _ _ _ _ _ _ B B') as (<- & <- & <-). rewrite E. unfold read_parts.
        apply parse_digits_decimal in Hd. apply parse_digits_decimal in He. rewrite Hd, He. reflexivity.
      + destruct H.
      + destruct (Hs (B0 _ _ _ H)) as (f' & l & c & B' & E).
        destruct (splits_best_unique _ _ _ _ _ _ _ H B') as (<- & <- & <-). rewrite E. reflexivity.
  Qed.
End Split.
