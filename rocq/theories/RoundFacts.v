(** The way through the Markdown export and the Markdown parser. *)
From Verif Require Import Base OMap Models Unicode Regex Utf8 Location LocFacts LocRound MdLex MdSyntax MdLexFacts ReadFacts
  MdParser MdSpec MdMachine MdRefine MdExact MdFacts MdFmt RoundSpec.
Open Scope N_scope.

Section Lines.
  (** ** The lines of an export *)
  Lemma split_line a s : ~ In NL a -> split_lines (a ++ NL :: s) = (a ++ [NL]) :: split_lines s.
  Proof.
    intros H. induction a as [|c a IH]; cbn [app split_lines]; [reflexivity|].
    destruct (N.eqb_spec c 10) as [->|Hc]; [exfalso; apply H; left; reflexivity|].
    rewrite IH by (intros X; apply H; right; exact X). reflexivity.
  Qed.
  Lemma split_blank s : split_lines (NL :: s) = [NL] :: split_lines s.
  Proof. reflexivity. Qed.
  (** A text whose last line is complete. *)
  Lemma split_nl a s : split_lines ((a ++ [NL]) ++ s) = split_lines (a ++ [NL]) ++ split_lines s.
  Proof.
    induction a as [|c a IH]; cbn [app split_lines]; [reflexivity|]. rewrite IH.
    destruct (c =? 10); [reflexivity|].
    destruct (split_lines (a ++ [NL])) as [|l ls] eqn:E; [|reflexivity].
    apply (f_equal (@concat N)) in E. rewrite split_lines_concat in E. destruct a; discriminate.
  Qed.
End Lines.

Section Round.
  Context {U : UnicodeTables} {CT : CaseTables}.

  Definition desc_lines (r : requirement) : list str :=
    match oget (L "Description") (req_attributes r) with
    | Some d => [NL] :: [NL] :: split_lines (d ++ [NL])
    | None => []
    end.
  Definition origin_line (r : requirement) : str := L "Origin: " ++ location_link (req_location r) ++ [NL].
  Definition head_line (r : requirement) : str :=
    L "### " ++ req_id r ++ L ": " ++ opt_default (req_title r) [] ++ [NL].

  (** The parts of an exported requirement, each beginning with an attribute line. *)
  Inductive part :=
  | PText (k first : str) (line : str) (ls : list str)
  | PLinks (cov : bool) (refs : list reference).
  Definition part_lines (x : part) : list str :=
    match x with
    | PText _ _ line ls => line :: ls
    | PLinks cov refs => ((if cov then L "Covers" else L "Depends") ++ L ":" ++ [NL]) :: map md_reference refs
    end.
  Definition link_parts (cov : bool) (refs : list reference) : list part :=
    match refs with [] => [] | _ => [PLinks cov refs] end.
  Definition kept (e : str * str) : bool := negb (eqb (fst e) (L "Description") || is_nil (trim (snd e))).
  Definition attr_part (e : str * str) : part :=
    PText (fst e) [] (fst e ++ L ":" ++ [NL]) (split_lines (trim (snd e) ++ [NL])).
  Definition origin_part (r : requirement) : part :=
    PText ORIGIN (location_link (req_location r)) (origin_line r) (desc_lines r).
  Definition more_parts (r : requirement) : list part :=
    link_parts true (req_covers r) ++ link_parts false (req_depends r) ++
    map attr_part (filter kept (req_attributes r)).
  Definition inner (r : requirement) : list str :=
    [NL] :: part_lines (origin_part r) ++ flat_map (fun x => [NL] :: part_lines x) (more_parts r).
  Definition rlines (r : requirement) : list str := [NL] :: head_line r :: inner r.

  Lemma no_nl_app a b : ~ In NL a -> ~ In NL b -> ~ In NL (a ++ b).
  Proof. intros Ha Hb H. apply in_app_or in H. tauto. Qed.
  Lemma no_nl_L (s : string) : existsb (N.eqb NL) (L s) = false -> ~ In NL (L s).
  Proof.
    intros H Hi. assert (X : existsb (N.eqb NL) (L s) = true); [|congruence].
    apply existsb_exists. exists NL. split; [exact Hi|reflexivity].
  Qed.
  Lemma no_nl_show n : ~ In NL (show_N n).
  Proof. apply show_free. reflexivity. Qed.

  Lemma good_id_no_nl id : good_id id -> ~ In NL id.
  Proof.
    intros (c & w & -> & Hc & _ & Hw) [H|H].
    - subst c. apply xid_start_continue in Hc. apply xid_continue_not_ws in Hc. discriminate.
    - rewrite forallb_forall in Hw. specialize (Hw _ H). apply xid_continue_not_ws in Hw. discriminate.
  Qed.
  Lemma good_name_no_nl k : good_name k -> ~ In NL k.
  Proof.
    intros (c & w & -> & Hc & _ & Hw) [H|H]; [subst c; discriminate|].
    rewrite forallb_forall in Hw. specialize (Hw _ H). discriminate.
  Qed.
  Lemma link_no_nl l : one_line l -> ~ In NL (location_link l).
  Proof.
    intros [H1 H2]. unfold location_link. destruct (loc_in_file l) as [[n|n c|s]|];
      repeat apply no_nl_app; try apply no_nl_show; try assumption; apply no_nl_L; reflexivity.
  Qed.
  Lemma reference_no_nl x : good_ref x -> exists a, md_reference x = a ++ [NL] /\ ~ In NL a.
  Proof.
    intros [H1 H2]. apply good_id_no_nl in H1. unfold md_reference. destruct (ref_title x) as [t|].
    - exists (L "*   " ++ ref_id x ++ L ": " ++ t). split; [rewrite <- !app_assoc; reflexivity|].
      repeat apply no_nl_app; try assumption; try (apply no_nl_L; reflexivity). apply H2.
    - exists (L "*   " ++ ref_id x). split; [rewrite <- !app_assoc; reflexivity|].
      apply no_nl_app; [apply no_nl_L; reflexivity|exact H1].
  Qed.

  Lemma split_references refs s : Forall good_ref refs ->
    split_lines (flat_map md_reference refs ++ s) = map md_reference refs ++ split_lines s.
  Proof.
    intros H. induction H as [|x refs Hx _ IH]; [reflexivity|]. cbn [flat_map map app].
    destruct (reference_no_nl x Hx) as (a & E & Ha). rewrite E, <- !app_assoc. cbn [app].
    rewrite split_line by exact Ha. f_equal. exact IH.
  Qed.
  Lemma split_links (cov : bool) refs s : Forall good_ref refs ->
    split_lines (md_references (if cov then "Covers" else "Depends")%string refs ++ s) =
    flat_map (fun x => [NL] :: part_lines x) (link_parts cov refs) ++ split_lines s.
  Proof.
    intros H. unfold md_references, link_parts. destruct refs as [|x refs]; [reflexivity|].
    cbn [flat_map app part_lines]. rewrite app_nil_r. rewrite <- !app_assoc.
    change (split_lines (NL :: L (if cov then "Covers" else "Depends")%string ++ L ":" ++ NL :: flat_map md_reference (x :: refs) ++ s) =
            [NL] :: ((if cov then L "Covers" else L "Depends") ++ L ":" ++ [NL]) :: (map md_reference (x :: refs) ++ split_lines s)).
    rewrite <- split_references by exact H.
    destruct cov; reflexivity.
  Qed.
  Lemma split_attribute e s : good_attribute e ->
    split_lines (md_attribute e ++ s) =
    flat_map (fun x => [NL] :: part_lines x) (map attr_part (if kept e then [e] else [])) ++ split_lines s.
  Proof.
    intros H. destruct e as [k v]. unfold md_attribute, kept, good_attribute in *. cbn [fst snd] in *.
    destruct (eqb k (L "Description")); [reflexivity|]. cbn [orb].
    destruct (trim v) as [|c t] eqn:E; [reflexivity|]. cbn [is_nil negb map flat_map attr_part part_lines fst snd].
    rewrite app_nil_r. rewrite E.
    transitivity (split_lines ([] ++ NL :: (k ++ L ":") ++ NL :: (((c :: t) ++ [NL]) ++ s))).
    { f_equal. cbn [app]. rewrite <- !app_assoc. cbn [app]. rewrite <- app_assoc. reflexivity. }
    rewrite split_line by intros []. rewrite split_line, split_nl.
    - rewrite <- app_assoc. reflexivity.
    - apply no_nl_app; [apply good_name_no_nl; apply H|apply no_nl_L; reflexivity].
  Qed.
  Lemma split_attributes l s : Forall good_attribute l ->
    split_lines (flat_map md_attribute l ++ s) =
    flat_map (fun x => [NL] :: part_lines x) (map attr_part (filter kept l)) ++ split_lines s.
  Proof.
    intros H. induction H as [|e l He _ IH]; [reflexivity|]. cbn [flat_map filter]. rewrite <- app_assoc.
    rewrite split_attribute by exact He. rewrite IH. rewrite app_assoc. f_equal.
    destruct (kept e); cbn [map]; [cbn [flat_map]; rewrite app_nil_r|]; reflexivity.
  Qed.

  Lemma split_requirement r s : exportable r ->
    split_lines (md_requirement r ++ s) = rlines r ++ split_lines s.
  Proof.
    intros (H1 & (t & Et & H2) & H3 & H4 & H5 & H6 & H7). unfold md_requirement, rlines, inner, head_line.
    rewrite Et. cbn [opt_default]. rewrite <- !app_assoc.
    change ([NL] ++ ?x) with (NL :: x). change ([NL; NL] ++ ?x) with (NL :: NL :: x).
    rewrite split_blank. cbn [app].
    replace (L "### " ++ req_id r ++ L ": " ++ t ++ NL :: NL :: L "Origin: " ++ location_link (req_location r) ++
             NL :: md_description r ++ md_references "Covers" (req_covers r) ++
             md_references "Depends" (req_depends r) ++ flat_map md_attribute (req_attributes r) ++ s)
      with ((L "### " ++ req_id r ++ L ": " ++ t) ++ NL :: NL :: (L "Origin: " ++ location_link (req_location r)) ++
             NL :: md_description r ++ md_references "Covers" (req_covers r) ++
             md_references "Depends" (req_depends r) ++ flat_map md_attribute (req_attributes r) ++ s)
      by (rewrite <- !app_assoc; reflexivity).
    rewrite split_line.
    2:{ repeat apply no_nl_app; try (apply no_nl_L; reflexivity); [apply good_id_no_nl; exact H1|apply H2]. }
    rewrite split_blank. rewrite split_line.
    2:{ apply no_nl_app; [apply no_nl_L; reflexivity|apply link_no_nl; exact H5]. }
    unfold origin_part, origin_line. cbn [part_lines]. rewrite <- !app_assoc. cbn [app]. do 4 f_equal.
    assert (ED : forall x, split_lines (md_description r ++ x) = desc_lines r ++ split_lines x).
    { intros x. unfold md_description, desc_lines. destruct (oget (L "Description") (req_attributes r)) as [d|]; [|reflexivity].
      transitivity (split_lines ([] ++ NL :: [] ++ NL :: ((d ++ [NL]) ++ x))).
      { cbn [app]. rewrite <- !app_assoc. reflexivity. }
      rewrite split_line by intros []. rewrite split_line by intros []. rewrite split_nl. reflexivity. }
    rewrite ED. f_equal. unfold more_parts. rewrite !flat_map_app, <- !app_assoc.
    rewrite (split_links true) by exact H3. f_equal.
    rewrite (split_links false) by exact H4. f_equal.
    apply split_attributes. exact H7.
  Qed.
  Lemma split_export reqs : Forall exportable reqs ->
    split_lines (flat_map md_requirement reqs) = flat_map rlines reqs.
  Proof.
    intros H. induction H as [|r reqs Hr _ IH]; [reflexivity|]. cbn [flat_map].
    rewrite split_requirement by exact Hr. f_equal. exact IH.
  Qed.

  (** ** Scanning the lines *)
  Lemma no_hash_no_heading l : starts_with_c HASH l = false -> heading_of l = None.
  Proof.
    intros H. unfold heading_of, scan_requirement. destruct l as [|c l]; [reflexivity|]. cbn [starts_with_c] in H.
    cbn [span]. rewrite N.eqb_sym, H. reflexivity.
  Qed.
  Lemma scan_good_id id c rest : good_id id -> xid_continue c = false ->
    scan_id (id ++ c :: rest) = Some (id, c :: rest).
  Proof.
    intros (x & w & -> & Hx & Hw & Ha) Hc. cbn [app scan_id]. rewrite Hx.
    rewrite (span_app xid_continue w (c :: rest) Ha Hc). destruct w; [congruence|reflexivity].
  Qed.
  Lemma good_id_head id : good_id id -> exists c w, id = c :: w /\ is_ws c = false.
  Proof. intros (c & w & -> & Hc & _). exists c, w. split; [reflexivity|apply xid_start_not_ws; exact Hc]. Qed.
  Lemma scan_title_good t : ~ In NL t -> scan_title ([32] ++ t ++ [NL]) = 
    match trim t with [] => Some [last t 32] | x => Some x end.
  Proof.
    intros H. unfold scan_title. rewrite app_assoc, chomp_nl. reflexivity.
  Qed.
  Lemma head_heading r t : good_id (req_id r) -> req_title r = Some t -> good_title t ->
    heading_of (head_line r) = Some (req_id r, t).
  Proof.
    intros H1 Et [H2 H3]. unfold heading_of, head_line, scan_requirement. rewrite Et. cbn [opt_default].
    destruct (good_id_head _ H1) as (c & w & E & Hc).
    change (span (N.eqb HASH) (L "### " ++ ?x)) with (L "###", [32] ++ x).
    cbv iota beta. change (L "###") with [HASH; HASH; HASH]. cbv iota beta.
    assert (Et2 : trim_start ([32] ++ req_id r ++ L ": " ++ t ++ [NL]) = req_id r ++ COLON :: [32] ++ t ++ [NL]).
    { cbn [app]. rewrite E. cbn -[L]. rewrite Hc. reflexivity. }
    rewrite Et2, (scan_good_id _ COLON _ H1 xid_continue_colon). cbv iota beta. rewrite N.eqb_refl.
    rewrite scan_title_good by exact H3. rewrite (trim_id t H2). destruct t as [|x t]; [reflexivity|].
    f_equal. f_equal. apply trim_id. exact H2.
  Qed.

  Lemma reference_is_ref x : good_ref x ->
    is_ref (md_reference x) /\ scan_ref (md_reference x) = Some (ref_sig x).
  Proof.
    intros [H1 H2].
    assert (E : scan_ref (md_reference x) = Some (ref_sig x)).
    { assert (Es : forall s, scan_ref (L "*   " ++ s) = match scan_ref_here ([32; 32; 32] ++ s) with
                                                        | Some y => Some y
                                                        | None => scan_ref ([32; 32] ++ s)
                                                        end) by reflexivity.
      destruct (good_id_head _ H1) as (c & w & Ei & Hc).
      assert (Et : forall s, trim_start ([32; 32] ++ ref_id x ++ s) = ref_id x ++ s).
      { intros s. rewrite Ei. cbn -[L]. rewrite Hc. reflexivity. }
      unfold md_reference, ref_sig. destruct (ref_title x) as [t|].
      - rewrite Es.
        assert (Eh : scan_ref_here ([32; 32; 32] ++ ref_id x ++ L ": " ++ t ++ [NL]) = Some (ref_id x, Some t)).
        { change ([32; 32; 32] ++ ?s) with (32 :: [32; 32] ++ s). unfold scan_ref_here. cbn [is_ws].
          change (is_ws 32) with true. cbv iota. rewrite Et.
          change (L ": " ++ t ++ [NL]) with (COLON :: [32] ++ t ++ [NL]).
          rewrite (scan_good_id _ COLON _ H1 xid_continue_colon). rewrite N.eqb_refl.
          destruct H2 as (H3 & H4 & H5). rewrite scan_title_good by exact H3.
          destruct H5 as [H5|H5].
          - rewrite (trim_id t H5). destruct t; [congruence|reflexivity].
          - destruct t as [|y [|z t]]; [congruence| |discriminate]. unfold trim, trim_end. cbn [trim_start].
            destruct (is_ws y) eqn:Ey; cbn [rev trim_start app last]; rewrite ?Ey; reflexivity. }
        rewrite Eh. reflexivity.
      - rewrite Es.
        assert (Eh : scan_ref_here ([32; 32; 32] ++ ref_id x ++ [NL]) = Some (ref_id x, None)).
        { change ([32; 32; 32] ++ ?s) with (32 :: [32; 32] ++ s). unfold scan_ref_here.
          change (is_ws 32) with true. cbv iota. rewrite Et.
          rewrite (scan_good_id _ NL _ H1) by (rewrite xid_continue_ascii; reflexivity). reflexivity. }
        rewrite Eh. reflexivity. }
    split; [|exact E]. split; [|rewrite E; discriminate].
    unfold md_reference. destruct (ref_title x); split; (reflexivity || discriminate).
  Qed.

  Lemma scan_name k v : good_name k -> scan_attribute (k ++ COLON :: v) = Some (k, chomp (trim_start v)).
  Proof.
    intros (c & w & -> & Hc & Hw & Ha). cbn [app scan_attribute]. rewrite Hc.
    rewrite (span_app is_lower_ascii w (COLON :: v) Ha is_lower_colon). destruct w as [|y w]; [congruence|].
    rewrite N.eqb_refl. reflexivity.
  Qed.
  Lemma name_no_hash k v : good_name k -> content (k ++ COLON :: v).
  Proof.
    intros (c & w & -> & Hc & _). split; cbn [app].
    - cbn [starts_with_c]. apply N.eqb_neq. intros ->. discriminate.
    - intros E. injection E as E1 E2. subst c. discriminate.
  Qed.
  Lemma origin_name : good_name ORIGIN.
  Proof. exists 79, (L "rigin"). repeat split. discriminate. Qed.
  Lemma link_head l : exists s, location_link l = 91 :: s.
  Proof. unfold location_link. destruct (loc_in_file l) as [[?|? ?|?]|]; eexists; reflexivity. Qed.
  Lemma scan_origin r : one_line (req_location r) ->
    content (origin_line r) /\ scan_attribute (origin_line r) = Some (ORIGIN, location_link (req_location r)).
  Proof.
    intros H. change (origin_line r) with (ORIGIN ++ COLON :: 32 :: location_link (req_location r) ++ [NL]).
    split; [apply name_no_hash, origin_name|]. rewrite scan_name by exact origin_name. f_equal. f_equal.
    destruct (link_head (req_location r)) as (s & E). rewrite E. cbn. rewrite <- E.
    change (91 :: s ++ [NL]) with ((91 :: s) ++ [NL]). rewrite <- E. apply chomp_nl.
  Qed.

  Lemma plain_lines s l : plain_text s -> In l (split_lines (s ++ [NL])) -> blank l \/ no_attr l.
  Proof.
    intros H Hl. destruct (H l Hl) as [H1 H2]. unfold blank. destruct (eqb_spec l [NL]) as [->|Hn]; [left; reflexivity|].
    right. split; [split; assumption|exact H2].
  Qed.

  (** ** Parts and blocks *)
  Definition part_ok (x : part) : Prop :=
    match x with
    | PText k first line ls =>
        content line /\ scan_attribute line = Some (k, first) /\ k <> COVERS /\ k <> DEPENDS /\
        Forall (fun l => blank l \/ no_attr l) ls
    | PLinks _ refs => Forall good_ref refs
    end.
  Inductive block_of : part -> block -> Prop :=
  | bo_text k first line ls n tl : tl = [] \/ tl = [[NL]] -> block_of (PText k first line ls) (BText n k first (ls ++ tl))
  | bo_links cov refs n nls : map snd nls = map md_reference refs -> block_of (PLinks cov refs) (BLinks n cov [] nls).

  (** What follows a part. *)
  Inductive follows : list nline -> list block -> Prop :=
  | fo_end : follows [] []
  | fo_blank n : follows [(n, [NL])] []
  | fo_more n m l A bs : is_attr l -> attrs ((m, l) :: A) bs Open -> follows ((n, [NL]) :: (m, l) :: A) bs.

  Lemma follows_text rest bs : follows rest bs -> exists tl rest',
    (tl = [] \/ tl = [[NL]]) /\ text_block rest tl rest' /\ attrs rest' bs Open.
  Proof.
    intros H. destruct H as [|n|n m l A bs Hl HA].
    - exists [], []. split; [auto|]. split; constructor.
    - exists [[NL]], []. split; [auto|]. split; [|constructor]. apply tb_line; [left; reflexivity|constructor].
    - exists [[NL]], ((m, l) :: A). split; [auto|]. split; [|exact HA]. apply tb_line; [left; reflexivity|].
      apply tb_attr. exact Hl.
  Qed.
  Lemma text_block_app ls rest tl rest' :
    Forall (fun l => blank (snd l) \/ no_attr (snd l)) ls -> text_block rest tl rest' ->
    text_block (ls ++ rest) (map snd ls ++ tl) rest'.
  Proof.
    intros H HT. induction H as [|[n l] ls Hl _ IH]; [exact HT|]. cbn [app map snd]. apply tb_line; assumption.
  Qed.
  Lemma ref_block_app refs rest bs :
    Forall (fun l => is_ref (snd l)) refs -> follows rest bs -> ref_block (refs ++ rest) refs rest.
  Proof.
    intros H HF. induction H as [|[n l] ls Hl _ IH]; cbn [app].
    - destruct HF; [constructor| |]; apply rb_stop; intros [[_ X] _]; apply X; reflexivity.
    - apply rb_ref; assumption.
  Qed.
  Lemma follows_links rest bs : follows rest bs -> after_links rest bs Open.
  Proof.
    intros H. destruct H as [|n|n m l A bs Hl HA].
    - constructor.
    - apply (al_blank n [NL] [] [] []); [left; reflexivity|reflexivity|intros x []|]. apply na_attrs. constructor.
    - apply (al_blank n [NL] ((m, l) :: A) [] ((m, l) :: A)); [left; reflexivity|reflexivity|intros x []|].
      apply na_attrs. exact HA.
  Qed.

  Lemma links_name (cov : bool) : good_name (if cov then COVERS else DEPENDS).
  Proof. destruct cov; [exists 67, (L "overs")|exists 68, (L "epends")]; repeat split; discriminate. Qed.

  Lemma part_attrs x nls rest bs :
    part_ok x -> map snd nls = part_lines x -> follows rest bs ->
    exists b m l A, nls = (m, l) :: A /\ is_attr l /\ attrs (nls ++ rest) (b :: bs) Open /\ block_of x b.
  Proof.
    intros HO HM HF. destruct x as [k first line ls|cov refs]; cbn [part_lines part_ok] in *.
    - destruct nls as [|[m l] A]; [discriminate|]. cbn [map snd] in HM. injection HM as El EA. subst l.
      destruct HO as (H1 & H2 & H3 & H4 & H5).
      destruct (follows_text rest bs HF) as (tl & rest' & Ht & HT & HA).
      exists (BText m k first (ls ++ tl)), m, line, A. split; [reflexivity|].
      split; [split; [exact H1|rewrite H2; discriminate]|]. split; [|constructor; exact Ht].
      cbn [app]. eapply at_text; try eassumption. rewrite <- EA. apply text_block_app; [|exact HT].
      rewrite <- EA in H5. clear -H5. induction A as [|a A IH]; [constructor|]. cbn [map] in H5.
      inversion H5; subst. constructor; auto.
    - destruct nls as [|[m l] A]; [discriminate|]. cbn [map snd] in HM. injection HM as El EA.
      assert (E : l = (if cov then COVERS else DEPENDS) ++ COLON :: [NL]) by (subst l; destruct cov; reflexivity).
      clear El. subst l.
      exists (BLinks m cov [] A), m, ((if cov then COVERS else DEPENDS) ++ COLON :: [NL]), A.
      split; [reflexivity|]. pose proof (name_no_hash _ [NL] (links_name cov)) as HC.
      pose proof (scan_name _ [NL] (links_name cov)) as HSc.
      split; [split; [exact HC|intros X; discriminate (eq_trans (eq_sym HSc) X)]|]. split; [|constructor; exact EA].
      cbn [app]. eapply at_links; [exact HC|exact HSc| |apply follows_links; exact HF].
      eapply ref_block_app; [|exact HF]. clear -EA HO.
      assert (HR : Forall is_ref (map md_reference refs)).
      { apply Forall_map. eapply Forall_impl; [|exact HO]. intros x Hx. apply reference_is_ref. exact Hx. }
      rewrite <- EA in HR. exact (proj1 (Forall_map _ _ _) HR).
  Qed.

  Lemma parts_attrs tail : tail = [] \/ tail = [[NL]] -> forall xs x nls,
    Forall part_ok (x :: xs) ->
    map snd nls = part_lines x ++ flat_map (fun y => [NL] :: part_lines y) xs ++ tail ->
    exists bs m l A, nls = (m, l) :: A /\ is_attr l /\ attrs nls bs Open /\ Forall2 block_of (x :: xs) bs.
  Proof.
    intros HT. induction xs as [|y xs IH]; intros x nls HO HM.
    - cbn [flat_map app] in HM. apply map_eq_app in HM. destruct HM as (n1 & n2 & -> & H1 & H2).
      assert (HF : follows n2 []).
      { destruct HT as [->| ->]; [destruct n2; [constructor|discriminate]|].
        destruct n2 as [|[n l] [|]]; try discriminate. cbn in H2. injection H2 as ->. constructor. }
      destruct (part_attrs x n1 n2 [] (Forall_inv HO) H1 HF) as (b & m & l & A & -> & Hl & HA & HB).
      exists [b], m, l, (A ++ n2). split; [reflexivity|]. split; [exact Hl|]. split; [exact HA|].
      constructor; [exact HB|constructor].
    - cbn [flat_map] in HM. apply map_eq_app in HM. destruct HM as (n1 & n2 & -> & H1 & H2).
      destruct n2 as [|[n l0] n2]; [discriminate|]. cbn [map snd app] in H2. injection H2 as -> H2.
      rewrite <- app_assoc in H2.
      destruct (IH y n2 (Forall_inv_tail HO) H2) as (bs & m & l & A & -> & Hl & HA & HB).
      destruct (part_attrs x n1 _ bs (Forall_inv HO) H1 (fo_more n m l A bs Hl HA)) as (b & m' & l' & A' & -> & Hl' & HA' & HB').
      exists (b :: bs), m', l', (A' ++ (n, [NL]) :: (m, l) :: A). split; [reflexivity|]. split; [exact Hl'|].
      split; [exact HA'|]. constructor; assumption.
  Qed.
End Round.
