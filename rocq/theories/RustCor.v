(** Consequences for the Rust parser: covers in order, unique ids, positions of calls, literals. *)
From Verif Require Import Base OMap Models Unicode Utf8 RustParser RustSpec RustFacts.
Open Scope N_scope.

Section RustCor.
  Context (debug_tokens : list token -> str) (p : path).

  Lemma groups_covers gs reqs :
    Forall2 (group_of p) gs reqs -> flat_map req_covers reqs = map snd (concat gs).
  Proof.
    induction 1 as [|g r gs reqs Hg _ IH]; [reflexivity|]. cbn [flat_map concat].
    rewrite map_app, IH. f_equal. destruct Hg as (m & x & ms & a & sc & _ & _ & _ & ->). reflexivity.
  Qed.

  (** The calls of one scope are not interrupted by calls of another one. *)
  Definition contiguous (xs : list (mark * reference)) : Prop :=
    forall a b c d e y1 y2 y3, xs = a ++ y1 :: b ++ y2 :: c ++ y3 :: d ->
      e = mark_id (fst y1) -> e = mark_id (fst y3) -> e = mark_id (fst y2).

  Lemma group_nonempty g r : group_of p g r -> exists y, In y g /\ mark_id (fst y) = req_id r.
  Proof.
    intros (m & x & ms & a & sc & -> & _ & H & _). exists (m, x). split; [left; reflexivity|].
    apply (H (m, x)). left. reflexivity.
  Qed.

  Lemma in_concat_app (l : list (list (mark * reference))) g y :
    In g l -> In y g -> exists a b, concat l = a ++ y :: b.
  Proof. intros H1 H2. apply in_split. apply in_concat. eauto. Qed.

  Lemma groups_unique gs reqs :
    Forall2 (group_of p) gs reqs -> neighbours_differ reqs -> contiguous (concat gs) ->
    NoDup (map req_id reqs).
  Proof.
    intros H. induction H as [|g r gs reqs Hg Hgs IH]; intros HN HC; [constructor|].
    cbn [map]. constructor.
    - intros Hin. apply in_map_iff in Hin. destruct Hin as (r' & Eid & Hr').
      destruct reqs as [|r2 reqs]; [destruct Hr'|]. destruct HN as [Hne _].
      destruct Hr' as [->|Hr']; [apply Hne; symmetry; exact Eid|].
      inversion Hgs as [|g2 ? gs2 ? Hg2 Hgs2]; subst.
      assert (exists g', In g' gs2 /\ group_of p g' r') as (g' & Hg' & Hgr).
      { clear -Hgs2 Hr'. induction Hgs2 as [|g0 r0 gs0 rs0 H0 Hs IH]; [destruct Hr'|].
        destruct Hr' as [->|Hr']; [exists g0; split; [left; reflexivity|exact H0]|].
        destruct (IH Hr') as (g' & ? & ?). exists g'. split; [right; assumption|assumption]. }
      destruct (group_nonempty _ _ Hg) as (y1 & I1 & E1).
      destruct (group_nonempty _ _ Hg2) as (y2 & I2 & E2).
      destruct (group_nonempty _ _ Hgr) as (y3 & I3 & E3).
      destruct (in_split _ _ I1) as (a1 & b1 & Eg). destruct (in_split _ _ I2) as (a2 & b2 & Eg2).
      destruct (in_concat_app _ _ _ Hg' I3) as (a3 & b3 & Eg3).
      apply Hne. rewrite <- E1, <- E2. symmetry in E1.
      eapply (HC a1 (b1 ++ a2) (b2 ++ a3) b3 _ y1 y2 y3).
      + cbn [concat]. rewrite Eg, Eg2, Eg3. rewrite <- !app_assoc. reflexivity.
      + congruence.
      + congruence.
    - apply IH.
      + destruct reqs; [exact I|]. apply HN.
      + intros a b c d e y1 y2 y3 E. cbn [concat] in HC.
        apply (HC (g ++ a) b c d). rewrite E, <- app_assoc. reflexivity.
  Qed.
End RustCor.

Lemma rust_unique syn_parse debug_tokens p r source file reqs errs :
  read_to_string r = ROk source -> syn_parse source = inl file ->
  rust_parse syn_parse debug_tokens p r = Done (reqs, errs) ->
  (forall xs, sorted_out debug_tokens p (marks [] file) xs errs -> contiguous xs) ->
  NoDup (map req_id reqs).
Proof.
  intros H1 H2 H3 HC. destruct (rust_exact debug_tokens p syn_parse r source file reqs errs H1 H2 H3)
    as (gs & Hg & Hn & Hs).
  exact (groups_unique p gs reqs Hg Hn (HC _ Hs)).
Qed.

Lemma contiguous_short xs : (length xs <= 2)%nat -> contiguous xs.
Proof.
  intros H a b c d e y1 y2 y3 E. exfalso. apply (f_equal (@length _)) in E.
  rewrite app_length in E. cbn [length] in E. rewrite app_length in E. cbn [length] in E.
  rewrite app_length in E. cbn [length] in E. lia.
Qed.

(** All calls: with [items] also those in item position, with [qualified] also those whose
    macro path has several segments. *)
Definition is_call (qualified : bool) (sg : list (str * span_pos)) : option span_pos :=
  match rev sg with
  | (name, a) :: pre =>
      if eqb name (L "requirement_covered") && (qualified || match pre with [] => true | _ => false end)
      then Some a else None
  | [] => None
  end.
Fixpoint all_calls (items qualified : bool) (sc : list (str * span_pos)) (n : node) : list mark :=
  let call sg tokens :=
    match is_call qualified sg with Some a => [mkMark sc a tokens] | None => [] end in
  match n with
  | NScope _ name a kids => flat_map (all_calls items qualified (sc ++ [(name, a)])) kids
  | NImpl ty tr a kids => flat_map (all_calls items qualified (sc ++ [(impl_name ty tr, a)])) kids
  | NExprMacro sg tokens => call sg tokens
  | NItemMacro sg tokens => if items then call sg tokens else []
  | NOther kids => flat_map (all_calls items qualified sc) kids
  end.

(** The value of a string literal without prefix, as the Rust reference defines it; only the
    escapes for quote, backslash and line feed. *)
Fixpoint unescape (b : str) : option str :=
  match b with
  | [] => Some []
  | 92 :: 34 :: b' => option_map (cons 34) (unescape b')
  | 92 :: 92 :: b' => option_map (cons 92) (unescape b')
  | 92 :: 110 :: b' => option_map (cons 10) (unescape b')
  | c :: b' => if (c =? 92) || (c =? 34) then None else option_map (cons c) (unescape b')
  end.
Definition literal (body : str) : str := 34 :: body ++ [34].

Lemma unquoted_plain body : ~ In 34 body -> unquoted (literal body) = body.
Proof.
  intros H. unfold unquoted, literal. cbn [filter]. cbn [N.eqb Pos.eqb negb]. rewrite filter_app.
  cbn [filter N.eqb Pos.eqb negb]. rewrite app_nil_r. induction body as [|c b IH]; [reflexivity|].
  cbn [filter]. destruct (N.eqb_spec c 34) as [->|]; [elim H; left; reflexivity|]. cbn [negb].
  rewrite IH; [reflexivity|]. intros Hi. apply H. right. exact Hi.
Qed.

Lemma unescape_plain body : ~ In 34 body -> ~ In 92 body -> unescape body = Some body.
Proof.
  induction body as [|c b IH]; intros H1 H2; [reflexivity|].
  assert (Hc : c <> 92) by (intros ->; apply H2; left; reflexivity).
  assert (Hc' : c <> 34) by (intros ->; apply H1; left; reflexivity).
  assert (E : unescape (c :: b) = if (c =? 92) || (c =? 34) then None else option_map (cons c) (unescape b)).
  { cbn [unescape]. destruct c as [|q]; [reflexivity|].
    do 7 (destruct q as [q|q|]; try reflexivity; try (elim Hc; reflexivity)). }
  rewrite E, (proj2 (N.eqb_neq c 92) Hc), (proj2 (N.eqb_neq c 34) Hc'). cbn [orb].
  rewrite IH; [reflexivity| |]; intros Hi; [apply H1|apply H2]; right; exact Hi.
Qed.

Lemma literal_quoted body : quoted (literal body).
Proof. exists (body ++ [34]). split; [reflexivity|]. exists (34 :: body). reflexivity. Qed.

Lemma is_call_plain sg :
  is_call false sg = match sg with
                     | [(name, a)] => if eqb name (L "requirement_covered") then Some a else None
                     | _ => None
                     end.
Proof.
  unfold is_call. destruct sg as [|[n1 a1] [|x2 sg]]; [reflexivity| |].
  - cbn [rev app orb]. rewrite andb_true_r. reflexivity.
  - destruct (rev ((n1, a1) :: x2 :: sg)) as [|[n a] pre] eqn:E; [reflexivity|].
    destruct pre.
    + apply (f_equal (@length _)) in E. rewrite rev_length in E. discriminate.
    + cbn [orb]. rewrite andb_false_r. reflexivity.
Qed.

Lemma flat_map_Forall {A B} (f g : A -> list B) l :
  Forall (fun x => f x = g x) l -> flat_map f l = flat_map g l.
Proof. induction 1 as [|x l H _ IH]; [reflexivity|]. cbn [flat_map]. rewrite H, IH. reflexivity. Qed.

(** The marks are the unqualified calls in expression position. *)
Lemma marks_are_calls n : forall sc, all_calls false false sc n = marks sc n.
Proof.
  induction n using node_ind'; intros sc; cbn [all_calls marks]; try reflexivity.
  - apply flat_map_Forall. eapply Forall_impl; [|eassumption]. intros x Hx. apply Hx.
  - apply flat_map_Forall. eapply Forall_impl; [|eassumption]. intros x Hx. apply Hx.
  - rewrite is_call_plain. destruct sg as [|[n1 a1] [|]]; try reflexivity.
    destruct (eqb n1 (L "requirement_covered")); reflexivity.
  - apply flat_map_Forall. eapply Forall_impl; [|eassumption]. intros x Hx. apply Hx.
Qed.

Section Literals.
  Context (debug_tokens : list token -> str) (p : path).

  (** A title literal without escapes is taken literally. *)
  Lemma literal_title id a sep b body v :
    ~ In 92 body -> unescape body = Some v -> forall id' t,
    refers [TokIdent id a; sep; TokOther (literal body) b] id' t <-> id' = id /\ t = Some v.
  Proof.
    intros HB HV id' t.
    assert (HQ : ~ In 34 body).
    { clear -HB HV. revert v HV. induction body as [|c b0 IH]; intros v HV HI; [exact HI|]. destruct HI as [H|H]; [subst; discriminate|].
      - assert (Hc : c <> 92) by (intros ->; apply HB; left; reflexivity).
        assert (E : unescape (c :: b0) = if (c =? 92) || (c =? 34) then None else option_map (cons c) (unescape b0)).
        { cbn [unescape]. destruct c as [|q]; [reflexivity|].
          do 7 (destruct q as [q|q|]; try reflexivity; try (elim Hc; reflexivity)). }
        rewrite E in HV. destruct ((c =? 92) || (c =? 34)); [discriminate|].
        destruct (unescape b0) as [w|] eqn:Ew; [|discriminate].
        eapply IH; [|reflexivity|exact H]. intros Hi. apply HB. right. exact Hi. }
    assert (HE : v = body) by (rewrite (unescape_plain body HQ HB) in HV; congruence). subst v.
    split.
    - intros H. inversion H; subst. cbn [tok_text]. rewrite unquoted_plain by exact HQ. auto.
    - intros [-> ->]. pose proof (ref_titled id a sep (TokOther (literal body) b)) as H. cbn [tok_text] in H.
      rewrite unquoted_plain in H by exact HQ. apply H. apply literal_quoted.
  Qed.
End Literals.

(** The calls that count, after parsing. *)
Lemma parsed_counted syn_parse debug_tokens p r source file reqs errs :
  read_to_string r = ROk source -> syn_parse source = inl file ->
  rust_parse syn_parse debug_tokens p r = Done (reqs, errs) ->
  exists xs, sorted_out debug_tokens p (all_calls false false [] file) xs errs /\
    flat_map req_covers reqs = map snd xs.
Proof.
  intros HR HS HP. destruct (rust_exact debug_tokens p syn_parse _ _ _ _ _ HR HS HP) as (gs & HG & _ & HSO).
  exists (concat gs). rewrite marks_are_calls. split; [exact HSO|]. exact (groups_covers p gs reqs HG).
Qed.

(** Calls with titles, after parsing. *)
Lemma parsed_refers syn_parse debug_tokens p r source file reqs errs m id t :
  read_to_string r = ROk source -> syn_parse source = inl file ->
  rust_parse syn_parse debug_tokens p r = Done (reqs, errs) ->
  In m (marks [] file) -> (forall e, ~ malformed debug_tokens p (mk_pos m) (mk_tokens m) e) ->
  (forall id' t', refers (mk_tokens m) id' t' -> id' = id /\ t' = t) ->
  exists req, In req reqs /\ In (mkReference id t (at_pos p (mk_pos m))) (req_covers req).
Proof.
  intros HR HS HP Hm HM HU. destruct (rust_exact debug_tokens p syn_parse _ _ _ _ _ HR HS HP) as (gs & HG & _ & HSO).
  assert (Hin : In (mkReference id t (at_pos p (mk_pos m))) (map snd (concat gs))).
  { clear - HSO Hm HM HU. revert Hm. induction HSO as [|m0 x ms xs es Hx _ IH|m0 e ms xs es He _ IH]; intros Hm; [destruct Hm| |].
    - destruct Hm as [->|Hm]; [left|right; apply IH; exact Hm]. destruct Hx as [Hr Hl]. apply HU in Hr. destruct Hr as [E1 E2].
      destruct x as [xi xt xl]. cbn [snd ref_id ref_title ref_location] in *. subst. reflexivity.
    - destruct Hm as [->|Hm]; [destruct (HM _ He)|apply IH; exact Hm]. }
  rewrite <- (groups_covers p gs reqs HG) in Hin. apply in_flat_map in Hin. exact Hin.
Qed.
Lemma literal_unquoted body : unquoted (literal body) = unquoted body.
Proof. unfold literal, unquoted. cbn. rewrite filter_app. cbn. apply app_nil_r. Qed.
Lemma parsed_title syn_parse debug_tokens p r source file reqs errs m id a sep body b :
  read_to_string r = ROk source -> syn_parse source = inl file ->
  rust_parse syn_parse debug_tokens p r = Done (reqs, errs) ->
  In m (marks [] file) -> mk_tokens m = [TokIdent id a; sep; TokOther (literal body) b] ->
  exists req, In req reqs /\
    In (mkReference id (Some (filter (fun c => negb (c =? 34)) body)) (at_pos p (mk_pos m))) (req_covers req).
Proof.
  intros HR HS HP Hm HT. apply (parsed_refers _ _ _ _ _ _ _ _ _ _ _ HR HS HP Hm); rewrite HT.
  - intros e He. inversion He; subst; cbn [tok_text length] in *; try congruence; match goal with H : ~ quoted _ |- _ => apply H; apply literal_quoted end.
  - intros id' t' H. inversion H; subst. cbn [tok_text]. rewrite literal_unquoted. auto.
Qed.
Lemma parsed_plain_title syn_parse debug_tokens p r source file reqs errs m id a sep body b v :
  read_to_string r = ROk source -> syn_parse source = inl file ->
  rust_parse syn_parse debug_tokens p r = Done (reqs, errs) ->
  In m (marks [] file) -> mk_tokens m = [TokIdent id a; sep; TokOther (literal body) b] ->
  ~ In 92 body -> unescape body = Some v ->
  exists req, In req reqs /\ In (mkReference id (Some v) (at_pos p (mk_pos m))) (req_covers req).
Proof.
  intros HR HS HP Hm HT HB HV. apply (parsed_refers _ _ _ _ _ _ _ _ _ _ _ HR HS HP Hm); rewrite HT.
  - intros e He. inversion He; subst; cbn [tok_text length] in *; try congruence; match goal with H : ~ quoted _ |- _ => apply H; apply literal_quoted end.
  - intros id' t' H. apply (literal_title id a sep b body v HB HV). exact H.
Qed.
