(** Messages about wrong titles in the Markdown report. *)
From Verif Require Import Base OMap Models Unicode Location Show Sort MdFmt TraceSpec AggSpec FmtSpec EntrySpec GnuReadSpec OutlineSpec Outline CodeSpec Code.
Open Scope N_scope.

Definition ITEM : str := L "        *    ".

Section Messages.
  Context {D : Debug} {CT : CaseTables}.

  Lemma line_app a b : one_line a -> one_line b -> one_line (a ++ b).
  Proof. intros H1 H2 X. apply in_app_or in X. destruct X as [X|X]; [exact (H1 X)|exact (H2 X)]. Qed.
  Lemma line_lit (s : string) : forallb (fun c => negb (c =? NL)) (L s) = true -> one_line (L s).
  Proof. intros H X. rewrite forallb_forall in H. apply H in X. discriminate. Qed.
  Lemma lines_one (x : list str) : Forall one_line x -> forall l, In l x -> ~ In NL l.
  Proof. intros H. rewrite Forall_forall in H. exact H. Qed.

  Lemma titles_shown e expected used : error_line e -> wrong_title e expected used ->
    exists before between after,
      page_lines (md_error e) =
        before ++ [ITEM ++ TICKS ++ opt_default expected [] ++ TICKS] ++ between ++ [ITEM ++ TICKS ++ used ++ TICKS] ++ after /\
      length before = 4%nat /\ length between = 1%nat.
  Proof.
    intros HE (u & l & loc & [[-> ->]|[-> ->]]); cbn [error_line] in HE; destruct HE as (HU & HL & HT & HO).
    - set (lines := [L "*   Requirement covered with wrong title:"; L "    *   Upper Requirement " ++ requirement_link u;
        L "    *   Lower Requirement " ++ requirement_link l; L "    *   Title of Upper Requirement:";
        ITEM ++ TICKS ++ opt_default (req_title u) [] ++ TICKS; L "    *   Title used to cover it:";
        ITEM ++ TICKS ++ used ++ TICKS; L "    *  At: " ++ show_location loc]).
      assert (E : md_error (ECoveredWithWrongTitle u l used loc) = flat_map (fun l => l ++ [NL]) lines).
      { unfold lines, ITEM. cbn [flat_map md_error]. rewrite <- !app_assoc, app_nil_r. reflexivity. }
      rewrite E, page_lines_all.
      2:{ intros x Hx. apply (lines_one lines); [|exact Hx]. unfold lines.
          repeat (apply Forall_cons; [repeat apply line_app; try (apply line_lit; reflexivity);
            first [exact (link_line u HU)|exact (link_line l HL)|exact HT|exact (place_text loc HO)|exact (title_text_line _ (proj1 (proj2 HU)))|exact (title_text_line _ (proj1 (proj2 HL)))]|]); apply Forall_nil. }
      exists (firstn 4 lines), [L "    *   Title used to cover it:"], [L "    *  At: " ++ show_location loc; []]. repeat split.
    - set (lines := [L "*   Requirement depended on with wrong title:"; L "    *   Upper Requirement " ++ requirement_link u;
        L "    *   Lower Requirement " ++ requirement_link l; L "    *   Title of Lower Requirement:";
        ITEM ++ TICKS ++ opt_default (req_title l) [] ++ TICKS; L "    *   Title used to cover it:";
        ITEM ++ TICKS ++ used ++ TICKS; L "    *  At: " ++ show_location loc]).
      assert (E : md_error (EDependWithWrongTitle u l used loc) = flat_map (fun l => l ++ [NL]) lines).
      { unfold lines, ITEM. cbn [flat_map md_error]. rewrite <- !app_assoc, app_nil_r. reflexivity. }
      rewrite E, page_lines_all.
      2:{ intros x Hx. apply (lines_one lines); [|exact Hx]. unfold lines.
          repeat (apply Forall_cons; [repeat apply line_app; try (apply line_lit; reflexivity);
            first [exact (link_line u HU)|exact (link_line l HL)|exact HT|exact (place_text loc HO)|exact (title_text_line _ (proj1 (proj2 HU)))|exact (title_text_line _ (proj1 (proj2 HL)))]|]); apply Forall_nil. }
      exists (firstn 4 lines), [L "    *   Title used to cover it:"], [L "    *  At: " ++ show_location loc; []]. repeat split.
  Qed.

  Theorem titles_code e expected used : error_line e -> wrong_title e expected used ->
    exists s1 s2, nth_error (page_lines (md_error e)) 4 = Some (ITEM ++ s1) /\ nth_error (page_lines (md_error e)) 6 = Some (ITEM ++ s2) /\
      (code_span s1 = Some (opt_default expected [], []) <-> code_text 4 (opt_default expected [])) /\
      (code_span s2 = Some (used, []) <-> code_text 4 used).
  Proof.
    intros HE HW. destruct (titles_shown e expected used HE HW) as (b & m & a & E & Hb & Hm).
    exists (TICKS ++ opt_default expected [] ++ TICKS), (TICKS ++ used ++ TICKS). rewrite E.
    destruct b as [|b1 [|b2 [|b3 [|b4 [|? ?]]]]]; try discriminate Hb. destruct m as [|m1 [|? ?]]; try discriminate Hm.
    split; [reflexivity|]. split; [reflexivity|]. change TICKS with (repeat TICK 4).
    split; apply code_iff; discriminate.
  Qed.

  Theorem no_title e used : error_line e -> wrong_title e None used ->
    exists s, nth_error (page_lines (md_error e)) 4 = Some (ITEM ++ s) /\ code_span s = None.
  Proof.
    intros HE HW. destruct (titles_shown e None used HE HW) as (b & m & a & E & Hb & Hm).
    exists (TICKS ++ [] ++ TICKS). rewrite E. destruct b as [|b1 [|b2 [|b3 [|b4 [|? ?]]]]]; try discriminate Hb.
    split; [reflexivity|]. change TICKS with (repeat TICK 4). apply no_text. discriminate.
  Qed.
End Messages.
