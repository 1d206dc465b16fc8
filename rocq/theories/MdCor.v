(** Consequences of the exact result of the Markdown parser. *)
From Coq Require Import Sorting.Sorted.
From Verif Require Import Base OMap Models Unicode Regex Utf8 MdLex MdSyntax MdLexFacts ReadFacts
  MdParser MdSpec MdMachine MdRefine MdExact MdFacts MdLines.
Open Scope N_scope.

(** ** Small notions used in the statements *)
(** What a heading determines of a requirement. *)
Definition head (r : requirement) : location * str * option str := (req_location r, req_id r, req_title r).
Definition head_of (p : path) (h : N * str * str) : location * str * option str :=
  let '(n, id, t) := h in (at_line p n, id, Some t).

Section Cor.
  Context {U : UnicodeTables} (p : path).

  (** Line [n] comes after all requirement headings. *)
  Definition after_headings (ls : list nline) (n : N) : Prop :=
    forall h, In h (headings ls) -> fst (fst h) < n.

  (** When the last requirement is lost: reading fails; or a plain heading or a format error
      comes after the last requirement heading. *)
  Definition loses_last (r : reader) (errs : list error) : Prop :=
    doc_error r <> None \/
    (exists n l, In (n, l) (doc_lines r) /\ plain_heading l /\ after_headings (doc_lines r) n) \/
    (exists n m, In (EFormat (at_line p n) m) errs /\ after_headings (doc_lines r) n).

  (** ** Zipping *)
  Lemma zip_reqs_map ss bes :
    zip_reqs p ss bes = map (fun x => section_req p (fst x) (fst (snd x))) (combine ss bes).
  Proof. revert bes. induction ss as [|s ss IH]; intros [|be bes]; cbn; [reflexivity..|]. rewrite IH. reflexivity. Qed.
  Lemma zip_errs_map ss bes :
    zip_errs p ss bes = flat_map (fun x => section_err p (fst x) (snd x)) (combine ss bes).
  Proof. revert bes. induction ss as [|s ss IH]; intros [|be bes]; cbn; [reflexivity..|]. rewrite IH. reflexivity. Qed.
  Lemma combine_ok ss bes s be : Forall2 section_ok ss bes -> In (s, be) (combine ss bes) -> In s ss /\ section_ok s be.
  Proof.
    induction 1 as [|s' be' ss bes H HF IH]; cbn; [intros []|].
    intros [E|H']; [inversion E; subst; auto|]. destruct (IH H'). auto.
  Qed.
  Lemma combine_app {A B} (a a' : list A) (b b' : list B) : length a = length b ->
    combine (a ++ a') (b ++ b') = combine a b ++ combine a' b'.
  Proof. revert b. induction a as [|x a IH]; intros [|y b] H; try discriminate; [reflexivity|]. cbn. rewrite IH by (cbn in H; lia). reflexivity. Qed.

  Lemma Forall2_length {A B} (R : A -> B -> Prop) a b : Forall2 R a b -> length a = length b.
  Proof. induction 1; cbn; congruence. Qed.

  (** ** Requirements *)
  Lemma block_req_head r b : head (block_req p r b) = head r.
  Proof. destruct b as [ls|n name first ls|n [] first refs]; reflexivity. Qed.
  Lemma blocks_req_head bs : forall r, head (blocks_req p r bs) = head r.
  Proof.
    unfold blocks_req. induction bs as [|b bs IH]; intros r; [reflexivity|]. cbn [fold_left].
    rewrite IH, block_req_head. reflexivity.
  Qed.
  Lemma section_req_head s bs : head (section_req p s bs) = head_of p (section_head s).
  Proof. destruct s as [[[n id] t] b]. unfold section_req. rewrite blocks_req_head. reflexivity. Qed.

  Lemma zip_heads ss bes : Forall2 section_ok ss bes ->
    map head (zip_reqs p ss bes) = map (head_of p) (map section_head ss).
  Proof.
    induction 1 as [|s be ss bes _ _ IH]; [reflexivity|]. cbn [zip_reqs map].
    rewrite section_req_head, IH. reflexivity.
  Qed.

  (** ** Errors *)
  Lemma block_err_line r b e : In e (block_err p r b) ->
    exists n a id, e = EDuplicateAttribute (at_line p n) a id /\ In n (block_lines b).
  Proof.
    destruct b as [ls|n name first ls|n [] first refs]; cbn.
    - intros [].
    - destruct (oget name (req_attributes r)); [intros [<-|[]]|intros []]. do 3 eexists. split; [reflexivity|]. left. reflexivity.
    - destruct (req_covers r); [intros []|intros [<-|[]]]. do 3 eexists. split; [reflexivity|]. left. reflexivity.
    - destruct (req_depends r); [intros []|intros [<-|[]]]. do 3 eexists. split; [reflexivity|]. left. reflexivity.
  Qed.
  Lemma blocks_err_line bs : forall r e, In e (blocks_err p r bs) ->
    exists n a id, e = EDuplicateAttribute (at_line p n) a id /\ In n (flat_map block_lines bs).
  Proof.
    induction bs as [|b bs IH]; intros r e H; [destruct H|]. cbn [blocks_err flat_map] in *.
    apply in_app_or in H. destruct H as [H|H].
    - apply block_err_line in H. destruct H as (n & a & id & -> & H). do 3 eexists. split; [reflexivity|].
      apply in_or_app. auto.
    - apply IH in H. destruct H as (n & a & id & -> & H). do 3 eexists. split; [reflexivity|].
      apply in_or_app. auto.
  Qed.

  Lemma section_err_line s be e : section_ok s be -> In e (section_err p s be) ->
    exists n, In n (map fst (snd s)) /\
      ((exists m, e = EFormat (at_line p n) m /\ snd be = Broken n m) \/
       (exists a id, e = EDuplicateAttribute (at_line p n) a id)).
  Proof.
    intros Hok H. unfold section_ok in Hok. destruct s as [[[n0 id0] t0] ls]. destruct be as [bs en].
    cbn [fst snd section_err] in *.
    pose proof (body_lines ls bs en Hok) as HL. apply in_app_or in H. destruct H as [H|H].
    - apply blocks_err_line in H. destruct H as (n & a & id & -> & H). exists n. split.
      + eapply sublist_in; [exact HL|]. unfold blocks_lines. apply in_or_app. auto.
      + right. eauto.
    - destruct en as [| |n m]; cbn in H; [destruct H|destruct H|]. destruct H as [<-|[]].
      exists n. split; [|left; eauto]. eapply sublist_in; [exact HL|]. unfold blocks_lines. apply in_or_app.
      right. left. reflexivity.
  Qed.

  (** ** C18 *)
  Lemma last_heading_split ls : no_reqs ls \/
    exists a x b id t, ls = a ++ x :: b /\ heading_of (snd x) = Some (id, t) /\ no_reqs b.
  Proof.
    induction ls as [|x ls IH]; [left; intros ? []|].
    destruct IH as [H|(a & y & b & id & t & -> & Hy & Hb)].
    - destruct (heading_of (snd x)) as [[id t]|] eqn:E.
      + right. exists [], x, ls, id, t. auto.
      + left. intros y [<-|Hy]; [exact E|apply H, Hy].
    - right. exists (x :: a), y, b, id, t. auto.
  Qed.

  Lemma headings_in ls h : In h (headings ls) <->
    exists l, In (fst (fst h), l) ls /\ heading_of l = Some (snd (fst h), snd h).
  Proof.
    destruct h as [[n id] t]. unfold headings. rewrite in_flat_map. cbn [fst snd]. split.
    - intros ([n' l] & Hin & H). cbn [fst snd] in H. exists l.
      destruct (heading_of l) as [[id' t']|]; [|destruct H]. destruct H as [H|[]]. inversion H; subst. auto.
    - intros (l & Hin & H). exists (n, l). cbn [fst snd]. rewrite H. split; [exact Hin|left; reflexivity].
  Qed.

  Lemma doc_sorted r : nsorted (doc_lines r).
  Proof. apply number_sorted. Qed.

  Theorem md_headings r reqs errs :
    md_parse p r = Done (reqs, errs) ->
    (loses_last r errs -> map head reqs = removelast (map (head_of p) (headings (doc_lines r)))) /\
    (~ loses_last r errs -> map head reqs = map (head_of p) (headings (doc_lines r))).
  Proof.
    intros HD. destruct (md_blocks_exist r) as (bes & HF).
    assert (HP : md_parse p r <> Panic) by congruence.
    pose proof (md_exact p r bes HF HP) as HE. rewrite HD in HE. injection HE as Hr He. clear HP.
    set (hs := map (head_of p) (headings (doc_lines r))).
    assert (Hz : map head (zip_reqs p (doc_sections r) bes) = hs).
    { unfold hs. rewrite headings_sections. apply zip_heads. exact HF. }
    assert (Hrm : map head (removelast (zip_reqs p (doc_sections r) bes)) = removelast hs).
    { rewrite <- Hz. destruct (zip_reqs p (doc_sections r) bes) as [|x l] using rev_ind; [reflexivity|].
      rewrite removelast_last, map_app. cbn [map]. rewrite removelast_last. reflexivity. }
    assert (G : hs = [] \/ (loses_last r errs <-> last_lost r bes = true)).
    2:{ destruct G as [G|G].
        - rewrite G in *. cbn [removelast] in *.
          assert (E : map head reqs = []) by (rewrite Hr; destruct (last_lost r bes); assumption). auto.
        - destruct (last_lost r bes) eqn:El; rewrite Hr; split; intros H.
          + exact Hrm.
          + exfalso. apply H, G. reflexivity.
          + apply G in H. discriminate.
          + exact Hz. }
    destruct (last_heading_split (doc_lines r)) as [HN|(a & x & b & id & t & El & Hx & Hb)].
    { left. unfold hs. rewrite headings_sections, sections_none by exact HN. reflexivity. }
    right.
    pose proof (doc_sorted r) as HS. rewrite El in HS. apply nsorted_app in HS.
    destruct HS as (HSa & HSx & HSax). apply (nsorted_app [x] b) in HSx. destruct HSx as (_ & HSb & HSxb).
    assert (Es : doc_sections r = snd (sections a) ++ [(fst x, id, t, b)]).
    { unfold doc_sections. rewrite El. etransitivity; [exact (f_equal snd (sections_app a x b id t Hx))|].
      cbn [snd]. pose proof (sections_none b Hb) as Hsn. rewrite Hsn. reflexivity. }
    rewrite Es in HF. apply Forall2_app_inv_l in HF. destruct HF as (bes1 & bes2 & HF1 & HF2 & ->).
    revert Hr He. inversion HF2 as [|? be ? bes3 Hok HF3]; subst. inversion HF3; subst. clear HF2 HF3.
    intros Hr He.
    unfold section_ok in Hok. cbn [snd] in Hok.
    assert (Hah : forall n, after_headings (doc_lines r) n <-> fst x < n).
    { intros n. split.
      - intros H. apply (H (fst x, id, t)). apply headings_in. exists (snd x). cbn. rewrite <- surjective_pairing.
        split; [|exact Hx]. rewrite El. apply in_or_app. right. left. reflexivity.
      - intros H h Hh. apply headings_in in Hh. destruct Hh as (l & Hin & Hl). rewrite El in Hin.
        apply in_app_or in Hin. destruct Hin as [Hin|[Hin|Hin]].
        + assert (L := HSax _ x Hin (or_introl eq_refl)). cbn [fst] in L. lia.
        + rewrite Hin in H. cbn in H. exact H.
        + apply Hb in Hin. cbn in Hin. congruence. }
    assert (Hinb : forall n l, In (n, l) (doc_lines r) -> fst x < n -> In (n, l) b).
    { intros n l Hin Hn. rewrite El in Hin. apply in_app_or in Hin. destruct Hin as [Hin|[Hin|Hin]]; [| |exact Hin].
      - assert (L := HSax _ x Hin (or_introl eq_refl)). cbn [fst] in L. lia.
      - rewrite Hin in Hn. cbn in Hn. lia. }
    assert (Hbn : forall n, In n (map fst b) -> fst x < n).
    { intros n Hn. apply in_map_iff in Hn. destruct Hn as (y & <- & Hy). apply HSxb; [left; reflexivity|exact Hy]. }
    unfold loses_last, last_lost. destruct (doc_error r) as [m|] eqn:Ed.
    { split; [reflexivity|]. intros _. left. discriminate. }
    rewrite map_app. cbn [map]. rewrite last_last. unfold closed.
    pose proof (body_ending b _ _ Hok) as [HO HC]. pose proof (body_lines b _ _ Hok) as HL.
    assert (Hio : io_error p r = []) by (unfold io_error; rewrite Ed; reflexivity).
    split.
    - intros [H|[(n & l & Hin & Hpl & Haf)|(n & m & Hin & Haf)]]; [congruence| |].
      + apply Hah in Haf. destruct (snd be) as [| |n' m']; [|reflexivity|reflexivity].
        exfalso. apply (HO eq_refl (n, l)); [apply Hinb; assumption|exact Hpl].
      + apply Hah in Haf. rewrite He, Hio, app_nil_r in Hin. rewrite Es, zip_errs_map in Hin.
        apply in_flat_map in Hin. destruct Hin as ([s be'] & Hc & Hin). cbn [fst snd] in Hin.
        rewrite combine_app in Hc by (eapply Forall2_length; exact HF1).
        apply in_app_or in Hc. destruct Hc as [Hc|[Hc|[]]].
        * exfalso. destruct (combine_ok _ _ _ _ HF1 Hc) as [Hs Hok']. apply section_err_line in Hin; [|exact Hok'].
          destruct Hin as (n' & Hn' & [(m' & E & _)|(a' & id' & E)]); [|discriminate].
          inversion E; subst n' m'. apply sections_split in Hs. destruct Hs as (a1 & l1 & b1 & -> & _).
          apply in_map_iff in Hn'. destruct Hn' as (y & <- & Hy).
          assert (L : fst y < fst x); [|lia].
          apply HSax; [|left; reflexivity]. apply in_or_app. right. right. apply in_or_app. auto.
        * inversion Hc; subst s be'. apply section_err_line in Hin; [|exact Hok].
          destruct Hin as (n' & Hn' & [(m' & E & Hbr)|(a' & id' & E)]); [|discriminate].
          rewrite Hbr. reflexivity.
    - intros H. right. destruct (snd be) as [| |n m] eqn:Eb; [discriminate| |].
      + left. destruct (HC eq_refl) as ([n l] & Hy & Hpl). exists n, l. split; [|split; [exact Hpl|]].
        * rewrite El. apply in_or_app. right. right. exact Hy.
        * apply Hah. apply Hbn. apply (in_map fst) in Hy. exact Hy.
      + right. exists n, m. split.
        * rewrite He. apply in_or_app. left. rewrite Es, zip_errs_map. apply in_flat_map.
          exists ((fst x, id, t, b), be). split.
          -- rewrite combine_app by (eapply Forall2_length; exact HF1). apply in_or_app. right. left. reflexivity.
          -- cbn [section_err fst snd]. rewrite Eb. apply in_or_app. right. left. reflexivity.
        * apply Hah, Hbn. eapply sublist_in; [exact HL|]. unfold blocks_lines. apply in_or_app. right. left. reflexivity.
  Qed.

  (** ** C22 *)
  Lemma block_req_covers r b :
    req_covers (block_req p r b) = req_covers r \/
    exists n first refs, b = BLinks n true first refs /\ req_covers (block_req p r b) = block_refs p n first refs.
  Proof. destruct b as [ls|n name first ls|n [] first refs]; auto. right. eauto. Qed.
  Lemma block_req_depends r b :
    req_depends (block_req p r b) = req_depends r \/
    exists n first refs, b = BLinks n false first refs /\ req_depends (block_req p r b) = block_refs p n first refs.
  Proof. destruct b as [ls|n name first ls|n [] first refs]; auto. right. eauto. Qed.

  Lemma blocks_req_covers bs : forall r,
    req_covers (blocks_req p r bs) = req_covers r \/
    exists n first refs, In (BLinks n true first refs) bs /\ req_covers (blocks_req p r bs) = block_refs p n first refs.
  Proof.
    unfold blocks_req. induction bs as [|b bs IH]; intros r; [auto|]. cbn [fold_left].
    destruct (IH (block_req p r b)) as [H|(n & first & refs & Hin & H)].
    - rewrite H. destruct (block_req_covers r b) as [H'|(n & first & refs & -> & H')]; [auto|].
      right. exists n, first, refs. split; [left; reflexivity|exact H'].
    - right. exists n, first, refs. split; [right; exact Hin|exact H].
  Qed.
  Lemma blocks_req_depends bs : forall r,
    req_depends (blocks_req p r bs) = req_depends r \/
    exists n first refs, In (BLinks n false first refs) bs /\ req_depends (blocks_req p r bs) = block_refs p n first refs.
  Proof.
    unfold blocks_req. induction bs as [|b bs IH]; intros r; [auto|]. cbn [fold_left].
    destruct (IH (block_req p r b)) as [H|(n & first & refs & Hin & H)].
    - rewrite H. destruct (block_req_depends r b) as [H'|(n & first & refs & -> & H')]; [auto|].
      right. exists n, first, refs. split; [left; reflexivity|exact H'].
    - right. exists n, first, refs. split; [right; exact Hin|exact H].
  Qed.

  (** Line numbers of the references of a link block. *)
  Lemma inline_refs_lines n first : exists ks,
    map ref_location (inline_refs p n first) = map (at_line p) ks /\ Forall (fun k => k = n) ks.
  Proof.
    unfold inline_refs. induction (split_on COMMA (trim first)) as [|q qs (ks & IH1 & IH2)]; [exists []; auto|].
    cbn [flat_map]. destruct (trim q) as [|c w]; [exists ks; auto|].
    exists (n :: ks). cbn. rewrite IH1. split; [reflexivity|constructor; auto].
  Qed.
  Lemma bullet_refs_lines refs : exists ks,
    map ref_location (bullet_refs p refs) = map (at_line p) ks /\ sublist ks (map fst refs).
  Proof.
    unfold bullet_refs. induction refs as [|[n l] refs (ks & IH1 & IH2)]; [exists []; split; [reflexivity|constructor]|].
    cbn [flat_map fst snd map]. destruct (scan_ref l) as [[id t]|].
    - exists (n :: ks). cbn. rewrite IH1. split; [reflexivity|apply sl_keep, IH2].
    - exists ks. split; [exact IH1|apply sl_skip, IH2].
  Qed.

  Lemma sublist_mid {A} (x : list A) y z l : sublist (x ++ y ++ z) l -> sublist y l.
  Proof.
    apply sublist_trans. apply sublist_app_l, sublist_app_r, sublist_refl.
  Qed.

  Lemma ssorted_sub (a l : list N) : sublist a l -> StronglySorted N.lt l -> StronglySorted N.lt a.
  Proof.
    induction 1 as [l|x a l H IH|x a l H IH]; intros HS; [constructor| |].
    - inversion HS; subst. auto.
    - inversion HS as [|? ? H1 H2]; subst. constructor; [apply IH; exact H1|].
      apply Forall_forall. intros y Hy. rewrite Forall_forall in H2. apply H2. eapply sublist_in; eassumption.
  Qed.
  Lemma nsorted_fst ls : nsorted ls -> StronglySorted N.lt (map fst ls).
  Proof.
    induction 1 as [|x l H IH H1]; [constructor|]. cbn. constructor; [exact IH|].
    apply Forall_forall. intros y Hy. apply in_map_iff in Hy. destruct Hy as (z & <- & Hz).
    rewrite Forall_forall in H1. apply H1, Hz.
  Qed.
  Lemma ssorted_le (l : list N) : StronglySorted N.lt l -> StronglySorted N.le l.
  Proof.
    induction 1 as [|x l H IH H1]; constructor; [exact IH|]. eapply Forall_impl; [|exact H1]. cbn. lia.
  Qed.

  Lemma block_refs_lines n first refs :
    StronglySorted N.lt (n :: map fst refs) ->
    exists ks, map ref_location (block_refs p n first refs) = map (at_line p) ks /\
      StronglySorted N.le ks /\ (forall k, In k ks -> In k (n :: map fst refs)).
  Proof.
    intros HS. destruct (inline_refs_lines n first) as (k1 & E1 & H1).
    destruct (bullet_refs_lines refs) as (k2 & E2 & H2).
    exists (k1 ++ k2). unfold block_refs. rewrite !map_app, E1, E2. split; [reflexivity|].
    assert (Hin : forall k, In k (k1 ++ k2) -> In k (n :: map fst refs)).
    { intros k Hk. apply in_app_or in Hk. destruct Hk as [Hk|Hk].
      - rewrite Forall_forall in H1. left. symmetry. apply H1, Hk.
      - right. eapply sublist_in; eassumption. }
    split; [|exact Hin]. clear E1 Hin. inversion HS as [|? ? Ha Hb]; subst.
    pose proof (ssorted_le _ (ssorted_sub _ _ H2 Ha)) as HS2.
    induction k1 as [|k k1 IH]; [exact HS2|]. inversion H1; subst. cbn. constructor; [auto|].
    apply Forall_forall. intros y Hy. apply in_app_or in Hy. destruct Hy as [Hy|Hy].
    - rewrite Forall_forall in H4. rewrite (H4 y Hy). lia.
    - rewrite Forall_forall in Hb. assert (n < y); [apply Hb; eapply sublist_in; eassumption|lia].
  Qed.

  (** The lines [ks] lie in the section that starts at line [n]. *)
  Definition inside (ls : list nline) (n k : N) : Prop :=
    n < k /\ k <= N.of_nat (length ls) /\
    (forall h, In h (headings ls) -> n < fst (fst h) -> k < fst (fst h)).

  Definition located (ls : list nline) (n : N) (rs : list reference) : Prop :=
    exists ks, map ref_location rs = map (at_line p) ks /\ StronglySorted N.le ks /\ Forall (inside ls n) ks.

  Lemma doc_bounds r x : In x (doc_lines r) -> 1 <= fst x <= N.of_nat (length (doc_lines r)).
  Proof.
    intros H. apply number_bounds in H. unfold doc_lines.
    rewrite <- (map_length snd (number 0 _)), number_snd. lia.
  Qed.

  Lemma section_inside r s k : In s (doc_sections r) -> In k (map fst (snd s)) ->
    inside (doc_lines r) (fst (fst (section_head s))) k.
  Proof.
    intros Hs Hk. apply in_map_iff in Hk. destruct Hk as (y & <- & Hy).
    assert (Hs' := Hs). apply sections_split in Hs'. destruct Hs' as (a & l & b & E & Hl & Hb).
    pose proof (doc_sorted r) as HS. unfold inside.
    assert (Hyd : In y (doc_lines r)).
    { rewrite E. apply in_or_app. right. right. apply in_or_app. auto. }
    split; [|split; [apply doc_bounds; exact Hyd|]].
    - rewrite E in HS. apply nsorted_app in HS. destruct HS as (_ & HS & _).
      inversion HS as [|? ? _ H2]; subst. rewrite Forall_forall in H2. apply (H2 y). apply in_or_app. auto.
    - intros h Hh Hn. apply headings_in in Hh. destruct Hh as (l' & Hin & Hl').
      rewrite E in Hin, HS. apply nsorted_app in HS. destruct HS as (_ & HS & Hax).
      apply in_app_or in Hin. destruct Hin as [Hin|[Hin|Hin]].
      + specialize (Hax _ (fst (fst (section_head s)), l) Hin (or_introl eq_refl)). cbn [fst] in Hax. lia.
      + inversion Hin. lia.
      + inversion HS as [|? ? H1 _]; subst. apply nsorted_app in H1. destruct H1 as (_ & _ & H1).
        apply in_app_or in Hin. destruct Hin as [Hin|Hin].
        * exfalso. pose proof (sections_no_reqs (doc_lines r)) as [_ HN]. apply (HN s Hs) in Hin.
          cbn in Hin. congruence.
        * specialize (H1 _ _ Hy Hin). exact H1.
  Qed.

  Lemma in_removelast {A} (x : A) l : In x (removelast l) -> In x l.
  Proof.
    destruct l as [|y l] using rev_ind; [intros []|]. rewrite removelast_last. intros H. apply in_or_app. auto.
  Qed.

  Lemma md_in_req r reqs errs req : md_parse p r = Done (reqs, errs) -> In req reqs ->
    exists s be, In s (doc_sections r) /\ section_ok s be /\ req = section_req p s (fst be).
  Proof.
    intros HD Hin. destruct (md_blocks_exist r) as (bes & HF).
    assert (HP : md_parse p r <> Panic) by congruence.
    pose proof (md_exact p r bes HF HP) as HE. rewrite HD in HE. injection HE as Hr He.
    assert (H : In req (zip_reqs p (doc_sections r) bes)).
    { rewrite Hr in Hin. destruct (last_lost r bes); [apply in_removelast in Hin|]; exact Hin. }
    rewrite zip_reqs_map in H. apply in_map_iff in H. destruct H as ([s be] & <- & H).
    apply (combine_ok _ _ _ _ HF) in H. exists s, be. cbn. tauto.
  Qed.

  Lemma md_in_err r reqs errs e : md_parse p r = Done (reqs, errs) -> In e errs ->
    (exists s be, In s (doc_sections r) /\ section_ok s be /\ In e (section_err p s be)) \/
    (exists m, doc_error r = Some m /\ e = EIo p m).
  Proof.
    intros HD Hin. destruct (md_blocks_exist r) as (bes & HF).
    assert (HP : md_parse p r <> Panic) by congruence.
    pose proof (md_exact p r bes HF HP) as HE. rewrite HD in HE. injection HE as Hr He.
    rewrite He in Hin. apply in_app_or in Hin. destruct Hin as [Hin|Hin].
    - left. rewrite zip_errs_map in Hin. apply in_flat_map in Hin. destruct Hin as ([s be] & H & Hin).
      apply (combine_ok _ _ _ _ HF) in H. exists s, be. cbn in Hin. tauto.
    - right. unfold io_error in Hin. destruct (doc_error r) as [m|]; [|destruct Hin].
      destruct Hin as [<-|[]]. eauto.
  Qed.

  Lemma links_located r s be n cov first refs :
    In s (doc_sections r) -> section_ok s be -> In (BLinks n cov first refs) (fst be) ->
    located (doc_lines r) (fst (fst (section_head s))) (block_refs p n first refs).
  Proof.
    intros Hs Hok Hin. pose proof (body_lines _ _ _ Hok) as HL.
    assert (Hsub : sublist (n :: map fst refs) (map fst (snd s))).
    { apply in_split in Hin. destruct Hin as (b1 & b2 & Eb). unfold blocks_lines in HL. rewrite Eb in HL.
      rewrite flat_map_app in HL. cbn [flat_map block_lines] in HL. rewrite <- !app_assoc in HL.
      apply sublist_mid in HL. exact HL. }
    assert (HSs : nsorted (snd s)).
    { pose proof (doc_sorted r) as HS. apply sections_split in Hs. destruct Hs as (a & l & b & E & _).
      rewrite E in HS. apply nsorted_app in HS. destruct HS as (_ & HS & _).
      inversion HS as [|? ? H1 _]; subst. apply nsorted_app in H1. apply H1. }
    destruct (block_refs_lines n first refs) as (ks & E & HSk & Hk).
    { eapply ssorted_sub; [exact Hsub|]. apply nsorted_fst. exact HSs. }
    exists ks. split; [exact E|]. split; [exact HSk|]. apply Forall_forall. intros k Hin'.
    apply section_inside; [exact Hs|]. eapply sublist_in; [exact Hsub|]. apply Hk. exact Hin'.
  Qed.

  Lemma located_nil ls n : located ls n [].
  Proof. exists []. repeat split; constructor. Qed.

  Theorem md_locations r reqs errs :
    md_parse p r = Done (reqs, errs) ->
    (forall req, In req reqs -> exists n, req_location req = at_line p n /\
       located (doc_lines r) n (req_covers req) /\ located (doc_lines r) n (req_depends req)) /\
    (forall e, In e errs ->
       (exists n, 1 <= n <= N.of_nat (length (doc_lines r)) /\
          ((exists m, e = EFormat (at_line p n) m) \/ (exists a id, e = EDuplicateAttribute (at_line p n) a id))) \/
       (exists m, doc_error r = Some m /\ e = EIo p m)).
  Proof.
    intros HD. split.
    - intros req Hin. destruct (md_in_req _ _ _ _ HD Hin) as (s & be & Hs & Hok & ->).
      pose proof (section_req_head s (fst be)) as Hh. destruct s as [[[n id] t] ls] eqn:Es.
      cbn [section_head fst head_of] in Hh. unfold head in Hh. injection Hh as Hloc Hid Ht.
      exists n. split; [exact Hloc|]. rewrite <- Es in *. cbn [section_req]. rewrite Es. cbn [section_req].
      replace n with (fst (fst (section_head s))) by (rewrite Es; reflexivity).
      split.
      + destruct (blocks_req_covers (fst be) (blank_req p (fst (fst (section_head s))) id t))
          as [H|(k & first & refs & Hb & H)]; rewrite H; [apply located_nil|].
        eapply links_located; eassumption.
      + destruct (blocks_req_depends (fst be) (blank_req p (fst (fst (section_head s))) id t))
          as [H|(k & first & refs & Hb & H)]; rewrite H; [apply located_nil|].
        eapply links_located; eassumption.
    - intros e Hin. destruct (md_in_err _ _ _ _ HD Hin) as [(s & be & Hs & Hok & H)|H]; [left|right; exact H].
      apply section_err_line in H; [|exact Hok]. destruct H as (n & Hn & H). exists n. split.
      + apply in_map_iff in Hn. destruct Hn as (y & <- & Hy). apply doc_bounds.
        apply sections_split in Hs. destruct Hs as (a & l & b & -> & _).
        apply in_or_app. right. right. apply in_or_app. auto.
      + destruct H as [(m & -> & _)|(a & id & ->)]; eauto.
  Qed.
End Cor.
