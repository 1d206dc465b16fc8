(** Links in the Markdown reports, as CommonMark 0.30 (section 6.3, inline links) reads them. *)
From Verif Require Import Base OMap Models Unicode Location LocFacts Show MdFmt EntrySpec FmtFacts FmtCor LinkFacts GnuRead.
Open Scope N_scope.

(** A link whose text contains nothing that is read as something else (brackets, backslashes, code, HTML), with a
    destination without angle brackets, blanks, control characters, parentheses and backslashes, and an optional title in
    double quotes, without double quotes and backslashes in it. *)
Definition inline_link (s text dest : str) (title : option str) : Prop :=
  s = L "[" ++ text ++ L "](" ++ dest ++ match title with Some t => [32; 34] ++ t ++ [34] | None => [] end ++ L ")" /\
  (forall c, In c text -> ~ In c [91; 93; 92; 96; 60; NL]) /\
  (forall c, In c dest -> 32 < c /\ ~ In c [40; 41; 60; 62; 92; 127]) /\
  (forall t c, title = Some t -> In c t -> ~ In c [34; 92; NL]).

(** Texts that can stand in such a link. *)
Definition link_text (s : str) : Prop := forall c, In c s -> ~ In c [91; 93; 92; 96; 60; NL].
Definition link_title (s : str) : Prop := forall c, In c s -> ~ In c [34; 92; NL].
Definition link_file (s : str) : Prop := forall c, In c s -> 32 < c /\ ~ In c [40; 41; 60; 62; 91; 92; 93; 96; 127].

Ltac chars := intros X; repeat (destruct X as [X|X]; [lia|]); destruct X.

Section Links.
  Context {CT : CaseTables}.

  Lemma slug_dest s c : In c (HASH :: slug s) -> 32 < c /\ ~ In c [40; 41; 60; 62; 92; 127].
  Proof.
    intros [<-|H]; [unfold HASH; split; [reflexivity|chars]|]. apply slug_clean in H. unfold anchor_char in H.
    split; [lia|]. chars.
  Qed.

  Theorem requirement_link_is_link r :
    link_text (req_id r) -> (forall t, req_title r = Some t -> link_title t) ->
    inline_link (requirement_link r) (req_id r) (HASH :: target_of r) (req_title r).
  Proof.
    intros Hi Ht. unfold requirement_link, target_of, inline_link. destruct (req_title r) as [t|].
    - split; [rewrite <- !app_assoc; reflexivity|]. split; [exact Hi|]. split; [intros c; apply slug_dest|].
      intros t0 c E. injection E as <-. apply (Ht t eq_refl).
    - split; [reflexivity|]. split; [exact Hi|]. split; [intros c; apply slug_dest|discriminate].
  Qed.

  Theorem requirement_link_leads r :
    link_text (req_id r) -> (forall t, req_title r = Some t -> link_title t) ->
    exists anchor, inline_link (requirement_link r) (req_id r) (HASH :: anchor) (req_title r) /\
      (is_ascii (heading_of r) = true -> anchor = heading_anchor (heading_of r)).
  Proof.
    intros Hi Ht. exists (target_of r). split; [apply requirement_link_is_link; assumption|apply target_heading].
  Qed.

  Lemma file_text f : link_file f -> link_text f.
  Proof.
    intros H c Hc. apply H in Hc. destruct Hc as [H1 H2]. intros X. cbn [In] in X.
    repeat (destruct X as [X|X]; [subst c; apply H2; cbn [In]; tauto|]); try exact X.
    destruct X as [X|X]; [subst c; discriminate|exact X].
  Qed.
  Lemma number_text n c : In c (show_N n) -> ~ In c [91; 93; 92; 96; 60; NL].
  Proof. intros H. apply show_N_in in H. unfold NL. chars. Qed.
  Lemma number_dest n c : In c (show_N n) -> 32 < c /\ ~ In c [40; 41; 60; 62; 92; 127].
  Proof. intros H. apply show_N_in in H. split; [lia|]. chars. Qed.
  Lemma file_dest f c : link_file f -> In c f -> 32 < c /\ ~ In c [40; 41; 60; 62; 92; 127].
  Proof.
    intros H Hc. apply H in Hc. destruct Hc as [H1 H2]. split; [exact H1|]. intros X. apply H2. cbn [In] in X |- *. tauto.
  Qed.

  Theorem location_link_is_link l : link_file (loc_file l) ->
    match loc_in_file l with
    | Some (Line n) | Some (LineAndColumn n _) =>
        inline_link (location_link l) (show_location l) (L "../" ++ loc_file l ++ L "?plain=1#L" ++ show_N n) None
    | None => inline_link (location_link l) (show_location l) (L "../" ++ loc_file l) None
    | Some (LocString _) => True
    end.
  Proof.
    intros H. unfold location_link, show_location, inline_link.
    assert (H1 : forall c, In c (L "../") -> 32 < c /\ ~ In c [40; 41; 60; 62; 92; 127]).
    { intros c X. vm_compute in X. repeat (destruct X as [X|X]; [subst c; split; [reflexivity|chars]|]). destruct X. }
    assert (H2 : forall c, In c (L "?plain=1#L") -> 32 < c /\ ~ In c [40; 41; 60; 62; 92; 127]).
    { intros c X. vm_compute in X. repeat (destruct X as [X|X]; [subst c; split; [reflexivity|chars]|]). destruct X. }
    assert (H3 : forall c, In c [COLON] -> ~ In c [91; 93; 92; 96; 60; NL]).
    { intros c [<-|[]]. unfold COLON, NL. chars. }
    destruct (loc_in_file l) as [[n|n m|s]|]; [| |exact I|].
    - split; [rewrite <- !app_assoc; reflexivity|]. split; [|split; [|discriminate]].
      + intros c X. rewrite !in_app_iff in X. destruct X as [X|[X|X]]; [exact (file_text _ H c X)|exact (H3 c X)|exact (number_text n c X)].
      + intros c X. rewrite !in_app_iff in X.
        destruct X as [X|[X|[X|X]]]; [exact (H1 c X)|exact (file_dest _ c H X)|exact (H2 c X)|exact (number_dest n c X)].
    - split; [cbn [show_in_file]; rewrite <- !app_assoc; reflexivity|]. split; [|split; [|discriminate]].
      + intros c X. cbn [show_in_file] in X. rewrite !in_app_iff in X.
        destruct X as [X|[X|[X|[X|X]]]]; [exact (file_text _ H c X)|exact (H3 c X)|exact (number_text n c X)|exact (H3 c X)|exact (number_text m c X)].
      + intros c X. rewrite !in_app_iff in X.
        destruct X as [X|[X|[X|X]]]; [exact (H1 c X)|exact (file_dest _ c H X)|exact (H2 c X)|exact (number_dest n c X)].
    - split; [rewrite <- !app_assoc; reflexivity|]. split; [|split; [|discriminate]].
      + intros c X. exact (file_text _ H c X).
      + intros c X. rewrite !in_app_iff in X. destruct X as [X|X]; [exact (H1 c X)|exact (file_dest _ c H X)].
  Qed.

  (** ** What is no link *)
  Lemma link_parts s text dest title : inline_link s text dest title ->
    exists rest, s = 91 :: text ++ 93 :: 40 :: dest ++ rest /\ ~ In 93 text /\ ~ In 32 dest /\ ~ In 41 dest /\
      ((title = None /\ rest = [41]) \/ (exists t, title = Some t /\ rest = 32 :: 34 :: t ++ [34; 41] /\ ~ In 34 t)).
  Proof.
    intros (-> & H1 & H2 & H3). exists (match title with Some t => [32; 34] ++ t ++ [34] | None => [] end ++ L ")").
    split; [reflexivity|]. split; [intros X; apply H1 in X; apply X; cbn [In]; tauto|].
    split; [intros X; apply H2 in X; destruct X as [X _]; lia|].
    split; [intros X; apply H2 in X; destruct X as [_ X]; apply X; cbn [In]; tauto|].
    destruct title as [t|]; [right|left; auto]. exists t. split; [reflexivity|]. split; [cbn [app]; rewrite <- app_assoc; reflexivity|].
    intros X. apply (H3 t _ eq_refl X). left. reflexivity.
  Qed.

  Lemma first_split (c : N) (a b x y : list N) : a ++ c :: x = b ++ c :: y -> ~ In c a -> ~ In c b -> a = b /\ x = y.
  Proof.
    revert b x y. induction a as [|d a IH]; intros [|e b] x y E Ha Hb.
    - inversion E. auto.
    - inversion E; subst. elim Hb. left. reflexivity.
    - inversion E; subst. elim Ha. left. reflexivity.
    - inversion E; subst. destruct (IH b x y) as [-> ->]; auto.
      + intros X. apply Ha. right. exact X.
      + intros X. apply Hb. right. exact X.
  Qed.

  (** The text of the link cannot be divided in another way. *)
  Theorem quote_no_link r t : link_text (req_id r) -> req_title r = Some t -> In 34 t ->
    ~ exists text dest title, inline_link (requirement_link r) text dest title.
  Proof.
    intros Hi Et Hq (text & dest & title & HL). destruct (link_parts _ _ _ _ HL) as (rest & E & H1 & H2 & H3 & H4).
    unfold requirement_link in E. rewrite Et in E.
    assert (Hi' : ~ In 93 (req_id r)) by (intros X; apply Hi in X; apply X; cbn [In]; tauto).
    assert (Hs : ~ In 32 (HASH :: slug (req_id r ++ L "-" ++ t)))
      by (intros X; apply slug_dest in X; destruct X as [X _]; lia).
    set (sl := slug (req_id r ++ L "-" ++ t)) in *.
    assert (E1 : req_id r ++ 93 :: (40 :: HASH :: sl ++ 32 :: 34 :: t ++ [34; 41]) = text ++ 93 :: (40 :: dest ++ rest))
      by (injection E as E; exact E).
    destruct (first_split _ _ _ _ _ E1 Hi' H1) as [_ E2]. injection E2 as E2.
    destruct H4 as [[_ ->]|(t' & _ & -> & Hn)].
    - assert (HI : In 32 (dest ++ [41])) by (rewrite <- E2; right; apply in_or_app; right; left; reflexivity).
      apply in_app_iff in HI. destruct HI as [HI|[HI|[]]]; [exact (H2 HI)|discriminate].
    - assert (E3 : (HASH :: sl) ++ 32 :: (34 :: t ++ [34; 41]) = dest ++ 32 :: (34 :: t' ++ [34; 41])) by exact E2.
      destruct (first_split _ _ _ _ _ E3 Hs H2) as [_ E4]. injection E4 as E4. apply app_inv_tail in E4. subst t'. exact (Hn Hq).
  Qed.

  Theorem blank_no_link l n : ~ In 93 (loc_file l) -> ~ In 34 (loc_file l) -> loc_in_file l = Some (Line n) -> In 32 (loc_file l) ->
    ~ exists text dest title, inline_link (location_link l) text dest title.
  Proof.
    intros Hb Hq El H (text & dest & title & HL). destruct (link_parts _ _ _ _ HL) as (rest & E & H1 & H2 & H3 & H4).
    unfold location_link in E. rewrite El in E.
    assert (HN : forall c, 57 < c -> ~ In c (show_N n)) by (intros c Hc X; apply show_N_in in X; lia).
    assert (E1 : (loc_file l ++ COLON :: show_N n) ++ 93 :: (40 :: L "../" ++ loc_file l ++ L "?plain=1#L" ++ show_N n ++ [41])
                 = text ++ 93 :: (40 :: dest ++ rest)).
    { injection E as E. rewrite <- app_assoc. exact E. }
    destruct (first_split _ _ _ _ _ E1) as [_ E2].
    { intros X. apply in_app_iff in X. destruct X as [X|[X|X]]; [exact (Hb X)|discriminate|]. exact (HN 93 eq_refl X). }
    { exact H1. }
    injection E2 as E2.
    assert (HQ : ~ In 34 (L "../" ++ loc_file l ++ L "?plain=1#L" ++ show_N n ++ [41])).
    { intros X. rewrite !in_app_iff in X. destruct X as [X|[X|[X|[X|[X|[]]]]]]; try discriminate; try contradiction.
      - vm_compute in X. repeat (destruct X as [X|X]; [discriminate|]). exact X.
      - vm_compute in X. repeat (destruct X as [X|X]; [discriminate|]). exact X.
      - apply show_N_in in X. lia. }
    assert (E2' : L "../" ++ loc_file l ++ L "?plain=1#L" ++ show_N n ++ [41] = dest ++ rest) by exact E2.
    rewrite E2' in HQ. destruct H4 as [[_ ->]|(t' & _ & -> & Hn)].
    - apply H2. assert (X : In 32 (dest ++ [41])) by (rewrite <- E2'; apply in_or_app; right; apply in_or_app; left; exact H).
      apply in_app_iff in X. destruct X as [X|[X|[]]]; [exact X|discriminate].
    - apply HQ. apply in_or_app. right. right. left. reflexivity.
  Qed.
End Links.
