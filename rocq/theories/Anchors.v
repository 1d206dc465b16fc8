(** When the targets of two links are the same (C102). *)
From Coq Require Import Lia.
From Verif Require Import Base OMap Models Unicode Location Show Sort Tracer TraceSpec
  Aggregator AggSpec AggFacts GnuErr Tags Serialize MdFmt Formatters FmtSpec FmtFacts EntrySpec FmtCor LinkFacts.
Open Scope N_scope.

(** Ids of ASCII letters, digits and underscores. *)
Definition word_char (c : chr) : Prop := 65 <= c <= 90 \/ 97 <= c <= 122 \/ 48 <= c <= 57 \/ c = 95.
Definition word_id (s : str) : Prop := Forall word_char s.
(** The same but for upper and lower case. *)
Definition same_but_case (a b : str) : Prop := map lower_ascii a = map lower_ascii b.
(** What the link to a requirement leads to. *)
Definition link_target {CT : CaseTables} (r : requirement) : option str := hd_error (targets (requirement_link r)).

Lemma word_no_bracket s : word_id s -> no_bracket s.
Proof. intros H X. unfold word_id in H. rewrite Forall_forall in H. apply H in X. unfold word_char in X. lia. Qed.

Section Anchors.
  Context {CT : CaseTables}.

  Lemma link_target_of r : no_bracket (req_id r) -> link_target r = Some (target_of r).
  Proof.
    intros H. unfold link_target, requirement_link, target_of. destruct (req_title r) as [t|].
    - change (L "[" ++ req_id r ++ L "](#" ++ slug (req_id r ++ L "-" ++ t) ++ [32; DQUOTE] ++ t ++ [DQUOTE; 41])
        with (91 :: req_id r ++ L "](#" ++ slug (req_id r ++ L "-" ++ t) ++ [32; DQUOTE] ++ t ++ [DQUOTE; 41]).
      rewrite targets_other by discriminate. rewrite (adds_plain (req_id r) H).
      pose proof (adds_target (slug (req_id r ++ L "-" ++ t)) 32 [] (fun y => slug_clean _ y) (or_introl eq_refl)
        (fun X => X) ([DQUOTE] ++ t ++ [DQUOTE; 41])) as E.
      rewrite <- !app_assoc in E. exact (f_equal (@hd_error str) E).
    - change (L "[" ++ req_id r ++ L "](#" ++ slug (req_id r) ++ L ")") with (91 :: req_id r ++ L "](#" ++ slug (req_id r) ++ [41]).
      rewrite targets_other by discriminate. rewrite (adds_plain (req_id r) H).
      pose proof (adds_target (slug (req_id r)) 41 [] (fun y => slug_clean _ y) (or_intror eq_refl) (fun X => X) []) as E.
      rewrite app_nil_r in E. exact (f_equal (@hd_error str) E).
  Qed.

  Lemma lower_word c : word_char c -> word_char (lower_ascii c) /\ lower_ascii c <> 45 /\ lower_ascii c <> 32.
  Proof.
    unfold word_char, lower_ascii. intros H. destruct ((65 <=? c) && (c <=? 90)) eqn:E.
    - apply andb_true_iff in E. destruct E as [E1 E2]. apply N.leb_le in E1, E2. lia.
    - apply andb_false_iff in E. rewrite !N.leb_gt in E. lia.
  Qed.
  Lemma keeps_word c : word_char c -> slug_char c = true.
  Proof.
    unfold word_char, slug_char, is_upper_ascii, is_lower_ascii, is_digit_ascii. intros H.
    rewrite !orb_true_iff, !andb_true_iff, !N.leb_le, !N.eqb_eq. lia.
  Qed.

  (** Words are only written in lower case, whatever follows. *)
  Lemma to_lowercase_word s b x : word_id s -> to_lowercase_from b (s ++ x) = map lower_ascii s ++ to_lowercase_from (b ++ s) x.
  Proof.
    intros H. revert b. induction H as [|c s Hc Hs IH]; intros b; [rewrite app_nil_r; reflexivity|].
    cbn [app to_lowercase_from map]. rewrite IH, <- app_assoc. cbn [app].
    assert (E : (if is_upper_ascii c then [c + 32] else if c <? 128 then [c] else lower_other b c (s ++ x)) = [lower_ascii c]).
    { unfold lower_ascii. change (is_upper_ascii c) with ((65 <=? c) && (c <=? 90)).
      destruct ((65 <=? c) && (c <=? 90)); [reflexivity|]. destruct (c <? 128) eqn:E; [reflexivity|].
      apply N.ltb_ge in E. unfold word_char in Hc. lia. }
    rewrite E. reflexivity.
  Qed.
  Lemma keep_word s : word_id s ->
    filter slug_char (map (fun c => if c =? 32 then 45 else c) (map lower_ascii s)) = map lower_ascii s.
  Proof.
    induction 1 as [|c s Hc Hs IH]; [reflexivity|]. cbn [map filter]. destruct (lower_word c Hc) as (H1 & _ & H2).
    apply N.eqb_neq in H2. rewrite H2, (keeps_word _ H1), IH. reflexivity.
  Qed.
  Lemma slug_word s : word_id s -> slug s = map lower_ascii s.
  Proof.
    intros H. unfold slug, to_lowercase. rewrite <- (app_nil_r s) at 1. rewrite to_lowercase_word by exact H.
    cbn [to_lowercase_from]. rewrite app_nil_r. apply keep_word, H.
  Qed.
  Lemma slug_word_title s t : word_id s -> exists y, slug (s ++ L "-" ++ t) = map lower_ascii s ++ 45 :: y.
  Proof.
    intros H. unfold slug, to_lowercase. rewrite to_lowercase_word, map_app, filter_app, keep_word by exact H.
    eexists. reflexivity.
  Qed.

  Lemma no_dash s : word_id s -> ~ In 45 (map lower_ascii s).
  Proof.
    intros H X. apply in_map_iff in X. destruct X as (c & E & Hc). unfold word_id in H. rewrite Forall_forall in H.
    destruct (lower_word c (H c Hc)) as (_ & N1 & _). contradiction.
  Qed.
  Lemma cut_dash (a b x y : str) : ~ In 45 a -> ~ In 45 b -> a ++ 45 :: x = b ++ 45 :: y -> a = b.
  Proof.
    revert b. induction a as [|c a IH]; intros b Ha Hb E; destruct b as [|d b]; cbn [app] in E.
    - reflexivity.
    - injection E as <- _. exfalso. apply Hb. left. reflexivity.
    - injection E as -> _. exfalso. apply Ha. left. reflexivity.
    - injection E as -> E. f_equal. apply IH; [intros X; apply Ha; right; exact X|intros X; apply Hb; right; exact X|exact E].
  Qed.

  Lemma target_told_apart r r' : word_id (req_id r) -> word_id (req_id r') -> target_of r = target_of r' ->
    same_but_case (req_id r) (req_id r') /\ (req_title r = None <-> req_title r' = None).
  Proof.
    intros H H' E. unfold target_of in E. unfold same_but_case.
    destruct (req_title r) as [t|], (req_title r') as [t'|].
    - destruct (slug_word_title (req_id r) t H) as [y Y], (slug_word_title (req_id r') t' H') as [y' Y'].
      rewrite Y, Y' in E. split; [|split; discriminate].
      apply (cut_dash _ _ y y'); [apply no_dash, H|apply no_dash, H'|exact E].
    - exfalso. destruct (slug_word_title (req_id r) t H) as [y Y]. rewrite Y, (slug_word _ H') in E.
      apply (no_dash _ H'). rewrite <- E. apply in_or_app. right. left. reflexivity.
    - exfalso. destruct (slug_word_title (req_id r') t' H') as [y Y]. rewrite Y, (slug_word _ H) in E.
      apply (no_dash _ H). rewrite E. apply in_or_app. right. left. reflexivity.
    - rewrite !slug_word in E by assumption. split; [exact E|tauto].
  Qed.

  Lemma told_apart r r' : word_id (req_id r) -> word_id (req_id r') -> link_target r = link_target r' ->
    same_but_case (req_id r) (req_id r') /\ (req_title r = None <-> req_title r' = None).
  Proof.
    intros H H' E. rewrite !link_target_of in E by (apply word_no_bracket; assumption). injection E as E.
    apply target_told_apart; assumption.
  Qed.

  Lemma same_target_iff r r' : no_bracket (req_id r) -> no_bracket (req_id r') ->
    is_ascii (heading_of r) = true -> is_ascii (heading_of r') = true ->
    link_target r = link_target r' <-> heading_anchor (heading_of r) = heading_anchor (heading_of r').
  Proof.
    intros H H' A A'. rewrite !link_target_of, !target_heading by assumption. split; intros E; [injection E as E|rewrite E]; auto.
  Qed.

  (** On a page with such ids, which differ in more than case, there is one requirement for each target. *)
  Lemma own_heading g tg ag t : graph_wf g -> trace g = Done tg -> unique_ids g -> aggregate tg = Done ag -> plain_graph g ->
    (forall r, In r (all_reqs g) -> is_ascii (heading_of r) = true /\ ~ In NL (heading_of r) /\ word_id (req_id r)) ->
    (forall r r', In r (all_reqs g) -> In r' (all_reqs g) -> same_but_case (req_id r) (req_id r') -> r = r') ->
    In t (targets (md_report g tg ag)) ->
    exists r, In r (all_reqs g) /\ In (heading_of r) (page_headings (md_report g tg ag)) /\ heading_anchor (heading_of r) = t /\
      forall r', In r' (all_reqs g) -> heading_anchor (heading_of r') = t -> r' = r.
  Proof.
    intros WF TR UN AG PG HA HC H.
    destruct (within_targets _ _ _ (report_targets g PG WF tg TR UN ag AG) H) as (r & Hr & ->).
    destruct (HA r Hr) as (H1 & H2 & H3). exists r.
    split; [exact Hr|]. split.
    - destruct (report_heading g WF tg TR UN ag AG r Hr) as (a & b & E). rewrite E. unfold page_headings. apply in_flat_map.
      exists (L "### " ++ heading_of r). split.
      + replace (a ++ ([NL] ++ L "### " ++ heading_of r ++ [NL]) ++ b) with (a ++ NL :: (L "### " ++ heading_of r) ++ NL :: b)
          by (cbn [app]; rewrite <- !app_assoc; reflexivity).
        apply page_line. intros X. apply in_app_iff in X. destruct X as [X|X]; [|exact (H2 X)].
        vm_compute in X. repeat (destruct X as [X|X]; [discriminate|]). exact X.
      + change (drop_prefix (L "### ") (L "### " ++ heading_of r)) with (Some (heading_of r)). left. reflexivity.
    - split; [symmetry; apply target_heading; exact H1|]. intros r' Hr' E. destruct (HA r' Hr') as (A1 & _ & A3).
      apply HC; [exact Hr'|exact Hr|]. apply target_told_apart; [exact A3|exact H3|].
      rewrite (target_heading r' A1). exact E.
  Qed.
End Anchors.
