(** What the lines look like: the line syntax of Markdown artefacts and of MonoRequirement files
    described as shapes of texts, without scanners, and the proof that the regular expressions of
    the program match exactly these shapes. *)
From Verif Require Import Base Unicode Regex MdSyntax MdLex MdLexFacts MonoSpec MonoParser MonoFacts MdCor2.
Open Scope N_scope.

Section LineSpec.
  Context {U : UnicodeTables}.

  Definition white (w : str) : Prop := forall c, In c w -> is_ws c = true.
  (** The text [b] is [w] without one line feed at its end, if it has one. *)
  Definition cut (w b : str) : Prop :=
    w = b ++ [NL] \/ (w = b /\ forall x, w <> x ++ [NL]).
  (** The title in the text after a colon: what is left without the white space around it; if the
      rest of the line is all white space the last character of it. *)
  Definition title_in (w t : str) : Prop :=
    exists b, cut w b /\
      ((exists x y, b = x ++ t ++ y /\ white x /\ white y /\ t <> [] /\ trimmed t) \/
       (exists x c, b = x ++ [c] /\ white b /\ t = [c])).
  Definition heading_shape (w h id t : str) : Prop :=
    exists x r, w = h ++ x ++ id ++ COLON :: r /\ h <> [] /\ (forall c, In c h -> c = HASH) /\
      white x /\ valid_id id /\ title_in r t.
  (** The same for the requirement: its title is trimmed, so that it may be empty. *)
  Definition heading_line (w id t : str) : Prop :=
    exists h x r b, w = h ++ x ++ id ++ COLON :: r /\ h <> [] /\ (forall c, In c h -> c = HASH) /\
      white x /\ valid_id id /\ cut r b /\ b <> [] /\
      exists y z, b = y ++ t ++ z /\ white y /\ white z /\ trimmed t.
  Definition attribute_shape (w name v : str) : Prop :=
    exists u s x b, name = u :: s /\ (65 <= u <= 90) /\ s <> [] /\
      (forall c, In c s -> 97 <= c <= 122) /\
      cut b v /\ w = name ++ COLON :: x ++ b /\ white x /\
      match b with [] => True | c :: _ => is_ws c = false end.
  (** The id of a reference and what follows it. *)
  Definition target_shape (w id : str) (t : option str) : Prop :=
    exists r, w = id ++ r /\ valid_id id /\
      match t with
      | None => white r
      | Some t' => exists r', r = COLON :: r' /\ title_in r' t'
      end.
  Definition ref_shape (w id : str) (t : option str) : Prop :=
    exists x r, w = x ++ r /\ x <> [] /\ white x /\ target_shape r id t.
  Definition arrow_shape (w id : str) (t : option str) : Prop :=
    exists x r, w = L "=>" ++ x ++ r /\ white x /\ target_shape r id t.
  (** The first position of the text where something of a shape starts. *)
  Definition first_at (sh : str -> str -> option str -> Prop) (w id : str) (t : option str) : Prop :=
    exists a b, w = a ++ b /\ sh b id t /\
      forall a' b' id' t', w = a' ++ b' -> (length a' < length a)%nat -> ~ sh b' id' t'.

  Lemma white_forallb w : white w <-> forallb is_ws w = true.
  Proof. unfold white. rewrite forallb_forall. reflexivity. Qed.

  Lemma cut_chomp w b : cut w b <-> chomp w = b.
  Proof.
    unfold cut, chomp. split.
    - intros [->|[-> H]].
      + rewrite rev_app_distr. cbn. apply rev_involutive.
      + destruct (rev b) as [|c r] eqn:E.
        * apply (f_equal (@rev _)) in E. rewrite rev_involutive in E. rewrite E. reflexivity.
        * destruct (N.eqb_spec c NL) as [->|]; [|reflexivity]. exfalso. apply (H (rev r)).
          apply (f_equal (@rev _)) in E. rewrite rev_involutive in E. exact E.
    - intros H. destruct (rev w) as [|c r] eqn:E; apply (f_equal (@rev _)) in E; rewrite rev_involutive in E; cbn in E.
      + subst. right. split; [reflexivity|]. intros x Hx. destruct x; discriminate.
      + destruct (N.eqb_spec c NL) as [->|].
        * left. rewrite E, <- H. reflexivity.
        * right. split; [exact H|]. intros x Hx. rewrite E in Hx. apply app_inj_tail in Hx. destruct Hx. contradiction.
  Qed.

  Lemma title_scan w t : title_in w t <-> scan_title w = Some t.
  Proof.
    unfold title_in, scan_title. split.
    - intros (b & Hb & H). apply cut_chomp in Hb. rewrite Hb. destruct H as [(x & y & -> & Hx & Hy & Ht & Htr)|(x & c & -> & Hw & ->)].
      + apply white_forallb in Hx, Hy.
        assert (E : trim (x ++ t ++ y) = t).
        { unfold trim. rewrite trim_start_ws by exact Hx.
          replace (trim_start (t ++ y)) with (t ++ y).
          - rewrite trim_end_ws by exact Hy. rewrite <- (trim_id t Htr) at 2. unfold trim.
            f_equal. destruct t as [|c t]; [reflexivity|]. cbn. rewrite (proj1 Htr). reflexivity.
          - destruct t as [|c t]; [elim Ht; reflexivity|]. cbn. rewrite (proj1 Htr). reflexivity. }
        destruct (x ++ t ++ y) as [|c w'].
        * cbn in E. elim Ht. symmetry. exact E.
        * rewrite E. destruct t; [elim Ht; reflexivity|reflexivity].
      + apply white_forallb in Hw. destruct (x ++ [c]) as [|d w'] eqn:E; [destruct x; discriminate|].
        rewrite (proj2 (trim_nil (d :: w')) Hw). f_equal. f_equal.
        assert (Hl : last (d :: w') d = c) by (rewrite <- E; apply last_last).
        rewrite <- Hl. destruct w'; reflexivity.
    - intros H. exists (chomp w). split; [apply cut_chomp; reflexivity|].
      destruct (chomp w) as [|c w'] eqn:E; [discriminate|].
      destruct (trim (c :: w')) as [|d t'] eqn:Et.
      + right. inversion H. apply trim_nil in Et. apply white_forallb in Et.
        destruct (@exists_last _ (c :: w') ltac:(discriminate)) as (q & z & Hq).
        exists q, z. split; [exact Hq|]. split; [exact Et|]. f_equal.
        assert (Hl : last (c :: w') c = z) by (rewrite Hq; apply last_last).
        rewrite <- Hl. destruct w'; reflexivity.
      + left. inversion H. subst t. clear H.
        destruct (trim_start_decomp (c :: w')) as (x & Hx & Hwx).
        destruct (trim_end_decomp (trim_start (c :: w'))) as (y & Hy & Hwy).
        exists x, y. fold (trim (c :: w')) in Hy. rewrite Et in Hy. rewrite <- Hy. 
        split; [exact Hx|]. split; [apply white_forallb, Hwx|]. split; [apply white_forallb, Hwy|].
        split; [discriminate|]. rewrite <- Et. apply trim_trimmed.
  Qed.

  Lemma scan_id_iff w id r :
    scan_id w = Some (id, r) <->
    (w = id ++ r /\ valid_id id /\ match r with [] => True | c :: _ => xid_continue c = false end).
  Proof.
    split.
    - destruct w as [|c w]; [discriminate|]. intros H. pose proof (scan_id_valid _ _ _ H) as Hv.
      revert H. cbn. destruct (xid_start c) eqn:E; [|discriminate].
      pose proof (span_eq xid_continue w) as Hq. pose proof (fun c r => span_stop xid_continue w c r) as Hs.
      destruct (span xid_continue w) as [a b] eqn:Es. destruct a as [|x a]; [discriminate|].
      intros H. inversion H; subst id r. cbn in Hq. split; [cbn; rewrite <- Hq; reflexivity|]. split; [exact Hv|].
      destruct b as [|d b]; [exact I|]. exact (Hs d b eq_refl).
    - intros (-> & (c & s & -> & Hc & Hs & Ha) & Hr). apply scan_id_stop; [|exact Hr].
      exists c, s. auto.
  Qed.

  Lemma valid_id_start id : valid_id id -> forall r, trim_start (id ++ r) = id ++ r.
  Proof.
    intros (c & s & -> & Hc & _) r. cbn. rewrite (xid_start_not_ws _ Hc). reflexivity.
  Qed.

  Lemma trim_start_to x id r : white x -> valid_id id -> trim_start (x ++ id ++ r) = id ++ r.
  Proof.
    intros Hx Hid. rewrite trim_start_ws by (apply white_forallb, Hx). apply valid_id_start, Hid.
  Qed.

  Lemma heading_scan w h id t : heading_shape w h id t <-> scan_requirement w = Some (h, id, t).
  Proof.
    unfold heading_shape, scan_requirement. split.
    - intros (x & r & -> & Hh & Hall & Hx & Hid & Ht).
      rewrite span_app.
      + destruct h as [|c h]; [elim Hh; reflexivity|].
        rewrite trim_start_to by assumption.
        rewrite (proj2 (scan_id_iff (id ++ COLON :: r) id (COLON :: r))).
        * rewrite N.eqb_refl. apply title_scan in Ht. rewrite Ht. reflexivity.
        * split; [reflexivity|]. split; [exact Hid|]. apply xid_continue_colon.
      + apply forallb_forall. intros c Hc. rewrite (Hall c Hc). reflexivity.
      + assert (Hns : forall c, is_ws c = true \/ xid_start c = true -> (HASH =? c) = false).
        { intros c [H|H]; destruct (N.eqb_spec HASH c) as [<-|]; try reflexivity; [discriminate H|].
          exfalso. revert H. rewrite xid_start_hash. discriminate. }
        destruct x as [|c x]; cbn.
        * destruct Hid as (c & s & -> & Hc & _). cbn. apply Hns. right. exact Hc.
        * apply Hns. left. apply Hx. left. reflexivity.
    - pose proof (span_eq (N.eqb HASH) w) as Hq. pose proof (span_all (N.eqb HASH) w) as Ha.
      destruct (span (N.eqb HASH) w) as [h' w1] eqn:Es. cbn in Hq, Ha.
      destruct h' as [|c h']; [discriminate|].
      destruct (trim_start_decomp w1) as (x & Hx & Hwx).
      destruct (scan_id (trim_start w1)) as [[id' [|c' r]]|] eqn:Ei; try discriminate.
      destruct (N.eqb_spec c' COLON) as [->|]; [|discriminate].
      destruct (scan_title r) as [t'|] eqn:Et; [|discriminate].
      intros H. inversion H; subst h id t. apply scan_id_iff in Ei. destruct Ei as (Er & Hid & _).
      exists x, r. split; [rewrite <- Er, <- Hx, <- Hq; reflexivity|]. split; [discriminate|].
      split. { intros d Hd. rewrite forallb_forall in Ha. specialize (Ha d Hd). apply N.eqb_eq in Ha. auto. }
      split; [apply white_forallb, Hwx|]. split; [exact Hid|]. apply title_scan, Et.
  Qed.

  Lemma is_upper_iff c : is_upper_ascii c = true <-> 65 <= c <= 90.
  Proof. unfold is_upper_ascii. rewrite andb_true_iff, !N.leb_le. reflexivity. Qed.
  Lemma is_lower_iff c : is_lower_ascii c = true <-> 97 <= c <= 122.
  Proof. unfold is_lower_ascii. rewrite andb_true_iff, !N.leb_le. reflexivity. Qed.

  Lemma attribute_scan w name v : attribute_shape w name v <-> scan_attribute w = Some (name, v).
  Proof.
    unfold attribute_shape, scan_attribute. split.
    - intros (u & s & x & b & -> & Hu & Hs & Hl & Hb & -> & Hx & Hf).
      cbn [app]. rewrite (proj2 (is_upper_iff u) Hu).
      rewrite span_app; [|apply forallb_forall; intros c Hc; apply is_lower_iff, Hl, Hc|reflexivity].
      destruct s as [|c s]; [elim Hs; reflexivity|]. rewrite N.eqb_refl.
      rewrite trim_start_ws by (apply white_forallb, Hx).
      assert (E : trim_start b = b) by (destruct b; cbn; [reflexivity|rewrite Hf; reflexivity]).
      rewrite E. apply cut_chomp in Hb. rewrite Hb. reflexivity.
    - destruct w as [|u w]; [discriminate|]. destruct (is_upper_ascii u) eqn:Eu; [|discriminate].
      pose proof (span_eq is_lower_ascii w) as Hq. pose proof (span_all is_lower_ascii w) as Ha.
      destruct (span is_lower_ascii w) as [s w1] eqn:Es. cbn in Hq, Ha.
      destruct s as [|c s]; [discriminate|]. destruct w1 as [|c' r]; [discriminate|].
      destruct (N.eqb_spec c' COLON) as [->|]; [|discriminate].
      intros H. inversion H; subst name v. clear H.
      destruct (trim_start_decomp r) as (x & Hx & Hwx).
      exists u, (c :: s), x, (trim_start r). split; [reflexivity|].
      split; [apply is_upper_iff, Eu|]. split; [discriminate|].
      split. { intros d Hd. rewrite forallb_forall in Ha. apply is_lower_iff, Ha, Hd. }
      split; [apply cut_chomp; reflexivity|].
      split. { rewrite <- Hx, <- Hq. reflexivity. }
      split; [apply white_forallb, Hwx|]. apply trim_start_first.
  Qed.

  (** id, optional colon and title at the beginning of the text *)
  Definition scan_target (w : str) : option (str * option str) :=
    match scan_id w with
    | Some (id, []) => Some (id, None)
    | Some (id, c :: r) =>
        if c =? COLON then option_map (fun t => (id, Some t)) (scan_title r)
        else if forallb is_ws (c :: r) then Some (id, None) else None
    | None => None
    end.

  Lemma target_scan w id t : target_shape w id t <-> scan_target w = Some (id, t).
  Proof.
    unfold target_shape, scan_target. split.
    - intros (r & -> & Hid & H). destruct t as [t|].
      + destruct H as (r' & -> & Ht).
        rewrite (proj2 (scan_id_iff (id ++ COLON :: r') id (COLON :: r')));
          [|split; [reflexivity|]; split; [exact Hid|]; apply xid_continue_colon].
        rewrite N.eqb_refl. apply title_scan in Ht. rewrite Ht. reflexivity.
      + apply white_forallb in H.
        rewrite (proj2 (scan_id_iff (id ++ r) id r)).
        * destruct r as [|c r]; [reflexivity|]. rewrite H.
          destruct (N.eqb_spec c COLON) as [->|]; [discriminate H|reflexivity].
        * split; [reflexivity|]. split; [exact Hid|]. destruct r as [|c r]; [exact I|].
          cbn in H. apply andb_true_iff in H. destruct (xid_continue c) eqn:E; [|reflexivity].
          apply xid_continue_not_ws in E. destruct H. congruence.
    - destruct (scan_id w) as [[id' r]|] eqn:Ei; [|discriminate]. apply scan_id_iff in Ei.
      destruct Ei as (-> & Hid & _). destruct r as [|c r].
      + intros H. inversion H; subst. exists []. repeat split; auto. intros c [].
      + destruct (N.eqb_spec c COLON) as [->|].
        * destruct (scan_title r) as [t'|] eqn:Et; [|discriminate]. intros H. inversion H; subst.
          exists (COLON :: r). repeat split; auto. exists r. split; [reflexivity|apply title_scan, Et].
        * destruct (forallb is_ws (c :: r)) eqn:Ew; [|discriminate]. intros H. inversion H; subst.
          exists (c :: r). repeat split; auto. apply white_forallb, Ew.
  Qed.

  Lemma target_not_ws w id t : target_shape w id t -> trim_start w = w.
  Proof. intros (r & -> & Hid & _). apply valid_id_start, Hid. Qed.

  Lemma ref_scan_here w id t : ref_shape w id t <-> scan_ref_here w = Some (id, t).
  Proof.
    assert (E : scan_ref_here w = match w with
                | c :: w' => if is_ws c then scan_target (trim_start w') else None
                | [] => None end).
    { unfold scan_ref_here, scan_target. destruct w as [|c w]; [reflexivity|]. destruct (is_ws c); [|reflexivity].
      destruct (scan_id (trim_start w)) as [[id' [|c' r]]|]; reflexivity. }
    rewrite E. clear E. unfold ref_shape. split.
    - intros (x & r & -> & Hne & Hx & Hr). destruct x as [|c x]; [elim Hne; reflexivity|].
      cbn [app]. rewrite (Hx c) by (left; reflexivity).
      rewrite trim_start_ws by (apply white_forallb; intros d Hd; apply Hx; right; exact Hd).
      rewrite (target_not_ws _ _ _ Hr). apply target_scan, Hr.
    - destruct w as [|c w]; [discriminate|]. destruct (is_ws c) eqn:Ec; [|discriminate].
      intros H. apply target_scan in H. destruct (trim_start_decomp w) as (x & Hx & Hwx).
      exists (c :: x), (trim_start w). split; [cbn; rewrite <- Hx; reflexivity|].
      split; [discriminate|]. split; [|exact H]. apply white_forallb. cbn. rewrite Ec. exact Hwx.
  Qed.

  Lemma arrow_scan_here w id t : arrow_shape w id t <-> scan_arrow_here w = Some (id, t).
  Proof.
    assert (E : scan_arrow_here w = match w with
                | e :: g :: w' => if (e =? 61) && (g =? 62) then scan_target (trim_start w') else None
                | _ => None end).
    { unfold scan_arrow_here, scan_target. destruct w as [|e [|g w]]; try reflexivity. }
    rewrite E. clear E. unfold arrow_shape. split.
    - intros (x & r & -> & Hx & Hr). cbn [L app N.eqb Pos.eqb andb].
      cbn. rewrite trim_start_ws by (apply white_forallb, Hx).
      rewrite (target_not_ws _ _ _ Hr). apply target_scan, Hr.
    - destruct w as [|e [|g w]]; try discriminate.
      destruct (N.eqb_spec e 61) as [->|]; [|discriminate].
      destruct (N.eqb_spec g 62) as [->|]; [|discriminate]. cbn [andb].
      intros H. apply target_scan in H. destruct (trim_start_decomp w) as (x & Hx & Hwx).
      exists x, (trim_start w). split; [rewrite <- Hx; reflexivity|].
      split; [apply white_forallb, Hwx|exact H].
  Qed.

  (** A search for the first position. *)
  Lemma first_search (sh : str -> str -> option str -> Prop) here (go : str -> option (str * option str)) :
    (forall w id t, sh w id t <-> here w = Some (id, t)) ->
    (forall w, go w = match here w with
                      | Some x => Some x
                      | None => match w with [] => None | _ :: w' => go w' end
                      end) ->
    forall w id t, first_at sh w id t <-> go w = Some (id, t).
  Proof.
    intros Hsh Hgo w id t. induction w as [|c w IH]; rewrite Hgo; unfold first_at.
    - split.
      + intros (a & b & E & H & _). symmetry in E. apply app_eq_nil in E. destruct E as [-> ->].
        apply Hsh in H. rewrite H. reflexivity.
      + destruct (here []) as [[id' t']|] eqn:E; [|discriminate]. intros H. inversion H; subst.
        exists [], []. split; [reflexivity|]. split; [apply Hsh, E|]. intros a' b' ? ? _ Hl. cbn in Hl. lia.
    - destruct (here (c :: w)) as [[id' t']|] eqn:E.
      + split.
        * intros (a & b & Ew & H & Hfirst). destruct a as [|d a].
          -- cbn in Ew. subst b. apply Hsh in H. congruence.
          -- exfalso. apply (Hfirst [] (c :: w) id' t'); [reflexivity|cbn; lia|apply Hsh, E].
        * intros H. inversion H; subst. exists [], (c :: w). split; [reflexivity|]. split; [apply Hsh, E|].
          intros a' b' ? ? _ Hl. cbn in Hl. lia.
      + rewrite <- IH. unfold first_at. split.
        * intros (a & b & Ew & H & Hfirst). destruct a as [|d a].
          -- cbn in Ew. subst b. apply Hsh in H. congruence.
          -- cbn in Ew. inversion Ew; subst d w. exists a, b. split; [reflexivity|]. split; [exact H|].
             intros a' b' i' t' Ea Hl. apply (Hfirst (c :: a') b'); cbn; [f_equal; exact Ea|lia].
        * intros (a & b & -> & H & Hfirst). exists (c :: a), b. split; [reflexivity|]. split; [exact H|].
          intros a' b' i' t' Ea Hl. destruct a' as [|d a'].
          -- cbn in Ea. subst b'. intros H'. apply Hsh in H'. congruence.
          -- cbn in Ea, Hl. inversion Ea; subst d. apply (Hfirst a' b'); [assumption|lia].
  Qed.

  Lemma ref_scan w id t : first_at ref_shape w id t <-> scan_ref w = Some (id, t).
  Proof. apply (first_search _ scan_ref_here scan_ref ref_scan_here). intros []; reflexivity. Qed.
  Lemma arrow_scan w id t : first_at arrow_shape w id t <-> scan_arrow w = Some (id, t).
  Proof. apply (first_search _ scan_arrow_here scan_arrow arrow_scan_here). intros []; reflexivity. Qed.

  (** ** The regular expressions *)
  Theorem heading_re w : proper w -> forall c, captures REQUIREMENT_LINE w = Some c <->
    exists h id t, heading_shape w h id t /\ c = [(3%nat, t); (2%nat, id); (1%nat, h)].
  Proof.
    intros HP c. rewrite requirement_regex by exact HP. split.
    - destruct (scan_requirement w) as [[[h id] t]|] eqn:E; [|discriminate]. intros H. inversion H.
      exists h, id, t. split; [apply heading_scan, E|reflexivity].
    - intros (h & id & t & H & ->). apply heading_scan in H. rewrite H. reflexivity.
  Qed.
  Theorem attribute_re w : proper w -> forall c, captures ATTRIBUTE_LINE w = Some c <->
    exists name v, attribute_shape w name v /\ c = [(2%nat, v); (1%nat, name)].
  Proof.
    intros HP c. rewrite attribute_regex by exact HP. split.
    - destruct (scan_attribute w) as [[name v]|] eqn:E; [|discriminate]. intros H. inversion H.
      exists name, v. split; [apply attribute_scan, E|reflexivity].
    - intros (name & v & H & ->). apply attribute_scan in H. rewrite H. reflexivity.
  Qed.
  Definition captured (id : str) (t : option str) : list (nat * str) :=
    match t with Some t' => [(2%nat, t'); (1%nat, id)] | None => [(1%nat, id)] end.
  Theorem reference_re w : proper w -> forall c, captures REF_LINK_LINE w = Some c <->
    exists id t, first_at ref_shape w id t /\ c = captured id t.
  Proof.
    intros HP c. rewrite ref_regex by exact HP. split.
    - destruct (scan_ref w) as [[id t]|] eqn:E; [|discriminate]. intros H. inversion H.
      exists id, t. split; [apply ref_scan, E|destruct t; reflexivity].
    - intros (id & t & H & ->). apply ref_scan in H. rewrite H. destruct t; reflexivity.
  Qed.
  Theorem arrow_re w : proper w -> forall c, captures MONO_REF_LINK w = Some c <->
    exists id t, first_at arrow_shape w id t /\ c = captured id t.
  Proof.
    intros HP c. rewrite arrow_regex by exact HP. split.
    - destruct (scan_arrow w) as [[id t]|] eqn:E; [|discriminate]. intros H. inversion H.
      exists id, t. split; [apply arrow_scan, E|destruct t; reflexivity].
    - intros (id & t & H & ->). apply arrow_scan in H. rewrite H. destruct t; reflexivity.
  Qed.
End LineSpec.
