(** [md_parse] computes the machine of MdMachine.v; its panics. *)
From Verif Require Import Base OMap Models Unicode Regex Utf8 MdLex MdSyntax MdLexFacts ReadFacts MdParser MdMachine MdSpec.
Open Scope N_scope.

(** The last line is a single byte other than a line feed. *)
Definition one_byte (l : str) : bool :=
  match l with [c] => (c <? 128) && negb (c =? NL) | _ => false end.
Definition one_byte_tail (rs : list read) : bool :=
  existsb one_byte (ok_lines rs).

Section Refine.
  Context {U : UnicodeTables} (p : path).

  Lemma good_nl a : ~ In NL a -> good_line (a ++ [NL]).
  Proof.
    intros H. split; [destruct a; discriminate|]. split; [apply proper_nl, H|].
    intros c E _. destruct a as [|x [|y a]]; cbn in E; congruence.
  Qed.

  Lemma one_byte_nl a : one_byte (a ++ [NL]) = false.
  Proof. destruct a as [|x [|y a]]; reflexivity. Qed.

  Lemma good_last s : s <> [] -> ~ In NL s -> one_byte s = false -> good_line s.
  Proof.
    intros H1 H2 H3. split; [exact H1|]. split; [apply proper_no_nl, H2|].
    intros c -> Hc. cbn in H3. rewrite (proj2 (N.ltb_lt c 128)) in H3 by exact Hc. cbn in H3.
    apply negb_false_iff, N.eqb_eq in H3. exact H3.
  Qed.

  Lemma bad_event s : one_byte s = true -> line_event s = Panic.
  Proof.
    destruct s as [|c [|? ?]]; try discriminate. cbn. intros H. apply andb_true_iff in H. destruct H as [H1 H2].
    unfold line_event. cbn. unfold utf8_len. rewrite H1. cbn.
    apply negb_true_iff in H2. rewrite H2. reflexivity.
  Qed.

  Lemma loop_ok rs : reads_wf rs -> forall c reqs errs n lvl,
    parse_loop p rs (fst (of_cfg c)) (ctx_of c reqs errs n lvl) = Panic /\ one_byte_tail rs = true \/
    one_byte_tail rs = false /\
    exists c' , parse_loop p rs (fst (of_cfg c)) (ctx_of c reqs errs n lvl) = Done c' /\
    let '(c2, rs', es') := mrun p c n (ok_lines rs) in
    match read_error rs with
    | None => c_requirements c' = reqs ++ rs' ++ finish c2 /\ c_errors c' = errs ++ es'
    | Some m => c_requirements c' = reqs ++ rs' /\ c_errors c' = errs ++ es' ++ [EIo p m]
    end.
  Proof.
    assert (Hstep : forall l rs c reqs errs n lvl, good_line l ->
      (forall c reqs errs n lvl,
        parse_loop p rs (fst (of_cfg c)) (ctx_of c reqs errs n lvl) = Panic /\ one_byte_tail rs = true \/
        one_byte_tail rs = false /\
        exists c' , parse_loop p rs (fst (of_cfg c)) (ctx_of c reqs errs n lvl) = Done c' /\
        let '(c2, rs', es') := mrun p c n (ok_lines rs) in
        match read_error rs with
        | None => c_requirements c' = reqs ++ rs' ++ finish c2 /\ c_errors c' = errs ++ es'
        | Some m => c_requirements c' = reqs ++ rs' /\ c_errors c' = errs ++ es' ++ [EIo p m]
        end) ->
      one_byte l = false ->
      parse_loop p (ROk l :: rs) (fst (of_cfg c)) (ctx_of c reqs errs n lvl) = Panic /\
        one_byte_tail (ROk l :: rs) = true \/
      one_byte_tail (ROk l :: rs) = false /\
      exists c' , parse_loop p (ROk l :: rs) (fst (of_cfg c)) (ctx_of c reqs errs n lvl) = Done c' /\
      let '(c2, rs', es') := mrun p c n (ok_lines (ROk l :: rs)) in
      match read_error (ROk l :: rs) with
      | None => c_requirements c' = reqs ++ rs' ++ finish c2 /\ c_errors c' = errs ++ es'
      | Some m => c_requirements c' = reqs ++ rs' /\ c_errors c' = errs ++ es' ++ [EIo p m]
      end).
    { intros l rs0 c reqs errs n lvl HG IH Hb.
      cbn [parse_loop ok_lines read_error mrun]. unfold one_byte_tail. cbn [ok_lines existsb].
      rewrite Hb. cbn [orb]. fold (one_byte_tail rs0).
      destruct (step_ok p c (n + 1) l reqs errs lvl HG) as (ev & Hev & Hem).
      rewrite Hev. cbn [obind].
      change (next_line (ctx_of c reqs errs n lvl)) with (ctx_of c reqs errs (n + 1) lvl).
      destruct (mstep p c (n + 1) l) as [[c1 rs1] es1]. destruct Hem as (lvl1 & ->).
      cbn [obind fst snd].
      specialize (IH c1 (reqs ++ rs1) (errs ++ es1) (n + 1) lvl1).
      destruct IH as [IH|(Hf & c' & HD & IH)]; [left; exact IH|right].
      split; [exact Hf|]. exists c'. split; [exact HD|].
      destruct (mrun p c1 (n + 1) (ok_lines rs0)) as [[c2 rs2] es2].
      destruct (read_error rs0); rewrite <- !app_assoc in *; exact IH. }
    induction 1 as [|m|s Hne Hn|a l Ha Hl IH]; intros c reqs errs n lvl.
    - right. split; [reflexivity|]. cbn [parse_loop parse_states].
      change (next_line (ctx_of c reqs errs n lvl)) with (ctx_of c reqs errs (n + 1) lvl).
      destruct (eof_ok c (n + 1) reqs errs lvl) as (lvl' & st & x & ->).
      eexists. split; [reflexivity|]. cbn. rewrite app_nil_r. split; reflexivity.
    - right. split; [reflexivity|]. eexists. split; [reflexivity|]. cbn. rewrite app_nil_r. split; reflexivity.
    - destruct (one_byte s) eqn:Eb.
      + left. cbn [parse_loop]. rewrite bad_event by exact Eb. split; [reflexivity|].
        unfold one_byte_tail. cbn. rewrite Eb. reflexivity.
      + apply Hstep; [apply good_last; assumption| |exact Eb].
        intros c0 reqs0 errs0 n0 lvl0. right. split; [reflexivity|]. cbn [parse_loop parse_states].
        change (next_line (ctx_of c0 reqs0 errs0 n0 lvl0)) with (ctx_of c0 reqs0 errs0 (n0 + 1) lvl0).
        destruct (eof_ok c0 (n0 + 1) reqs0 errs0 lvl0) as (lvl' & st & x & ->).
        eexists. split; [reflexivity|]. cbn. rewrite app_nil_r. split; reflexivity.
    - apply Hstep; [apply good_nl; exact Ha|exact IH|apply one_byte_nl].
  Qed.

  Theorem md_parse_spec r :
    md_parse p r =
    if one_byte_tail (read_lines r) then Panic
    else Done (mresult p (ok_lines (read_lines r)) (read_error (read_lines r))).
  Proof.
    unfold md_parse.
    pose proof (loop_ok (read_lines r) (read_lines_wf r) (Idle None) [] [] 0 0) as H.
    cbn [of_cfg fst] in H.
    change (ctx_of (Idle None) [] [] 0 0) with (mkContext [] [] None 0 0) in H.
    destruct H as [[-> ->]|(-> & c' & -> & H)]; [reflexivity|]. cbn [obind].
    unfold mresult. destruct (mrun p (Idle None) 0 (ok_lines (read_lines r))) as [[c2 rs'] es'].
    cbn [app] in H. destruct (read_error (read_lines r)); destruct H as [-> ->]; reflexivity.
  Qed.

  (** ** The panic, in terms of bytes *)
  Lemma decode_app_nl a b : (a = [] \/ exists a', a = a' ++ [NL]) ->
    decode (a ++ b) = match decode a, decode b with Some x, Some y => Some (x ++ y) | _, _ => None end.
  Proof.
    intros Ha.
    destruct (decode (a ++ b)) as [s|] eqn:E.
    2:{ destruct (decode a) as [x|] eqn:Ea; [|reflexivity]. destruct (decode b) as [y|] eqn:Eb; [|reflexivity].
        apply decode_sound in Ea. apply decode_sound in Eb. destruct Ea as [-> Va], Eb as [-> Vb].
        rewrite <- encode_app, decode_encode in E; [discriminate|]. rewrite forallb_app, Va, Vb. reflexivity. }
    destruct Ha as [->|(a' & ->)]; [cbn in *; rewrite E; reflexivity|].
    apply decode_sound in E. destruct E as [E V].
    (* the line feed byte is a character of [s] *)
    assert (G : forall s, (a' ++ [NL]) ++ b = encode s -> exists s1 s2, s = s1 ++ s2 /\ encode s1 = a' ++ [NL] /\ encode s2 = b).
    { clear s E V. intros s. revert a'. induction s as [|c s IH]; intros a' E.
      - exfalso. cbn in E. destruct a'; discriminate.
      - unfold encode in E. cbn [flat_map] in E. fold (encode s) in E.
        destruct (le_lt_dec (length (a' ++ [NL])) (length (encode_char c))) as [Hle|Hgt].
        + (* the line feed lies in the first character *)
          assert (Hin : In NL (encode_char c)).
          { assert (Hf : firstn (length (a' ++ [NL])) (encode_char c ++ encode s) = a' ++ [NL]).
            { rewrite <- E. rewrite firstn_app, Nat.sub_diag, firstn_all. cbn. apply app_nil_r. }
            rewrite firstn_app in Hf. replace (length (a' ++ [NL]) - length (encode_char c))%nat with 0%nat in Hf by lia.
            cbn in Hf. rewrite app_nil_r in Hf.
            rewrite <- (firstn_skipn (length (a' ++ [NL])) (encode_char c)), Hf.
            apply in_or_app. left. apply in_or_app. right. left. reflexivity. }
          apply encode_char_nl in Hin. subst c. change (encode_char NL) with [NL] in *.
          rewrite app_length in Hle. cbn in Hle. destruct a'; [|cbn in Hle; lia].
          cbn in E. injection E as E. exists [NL], s. repeat split; auto.
        + assert (Hs : exists a2, a' = encode_char c ++ a2).
          { exists (skipn (length (encode_char c)) a').
            rewrite <- (firstn_skipn (length (encode_char c)) a') at 1. f_equal.
            rewrite app_length in Hgt. cbn in Hgt.
            assert (Hf : firstn (length (encode_char c)) ((a' ++ [NL]) ++ b) = encode_char c).
            { rewrite E. rewrite firstn_app, Nat.sub_diag, firstn_all. cbn. apply app_nil_r. }
            rewrite <- app_assoc, firstn_app in Hf.
            replace (length (encode_char c) - length a')%nat with 0%nat in Hf by lia.
            cbn in Hf. rewrite app_nil_r in Hf. exact Hf. }
          destruct Hs as (a2 & ->). rewrite <- !app_assoc in E. apply app_inv_head in E.
          rewrite app_assoc in E. destruct (IH a2 E) as (s1 & s2 & -> & H1 & H2).
          exists (c :: s1), s2. repeat split; [|exact H2]. unfold encode. cbn [flat_map]. fold (encode s1).
          rewrite H1, app_assoc. reflexivity. }
    destruct (G s E) as (s1 & s2 & -> & H1 & H2). rewrite <- H1, <- H2.
    rewrite forallb_app in V. apply andb_true_iff in V. destruct V as [V1 V2].
    rewrite !decode_encode by assumption. reflexivity.
  Qed.

  (** The bytes end in a line that is a single ASCII byte other than a line feed, and what
      precedes it is valid UTF-8. *)
  Definition ends_in_one_byte (bs : list N) : Prop :=
    exists pre b, bs = pre ++ [b] /\ (pre = [] \/ exists q, pre = q ++ [NL]) /\
                  b < 128 /\ b <> NL /\ decode pre <> None.

  Lemma app_snoc_split {A} (a b pre : list A) x :
    a ++ b = pre ++ [x] -> b <> [] -> exists b', b = b' ++ [x] /\ pre = a ++ b'.
  Proof.
    intros E Hb. destruct (exists_last Hb) as (b' & y & ->). rewrite app_assoc in E.
    apply app_inj_tail in E. destruct E as [<- <-]. eauto.
  Qed.

  Lemma tail_bytes ls fail : lines_wf ls ->
    existsb one_byte (ok_lines (read_results ls fail)) = true <->
    fail = None /\ ends_in_one_byte (concat ls).
  Proof.
    intros H. induction H as [|s Hne Hn|a l Ha Hl IH].
    - cbn. split.
      + destruct fail; cbn; discriminate.
      + intros (_ & pre & b & E & _). destruct pre; discriminate.
    - rewrite read_results_last by assumption. cbn [concat]. rewrite app_nil_r.
      destruct fail as [m|]; [cbn; split; [discriminate|intros [? _]; discriminate]|].
      split.
      + intros H. split; [reflexivity|]. destruct (decode s) as [t|] eqn:E; [|discriminate].
        cbn in H. rewrite orb_false_r in H. destruct t as [|c [|? ?]]; try discriminate.
        cbn in H. apply andb_true_iff in H. destruct H as [H1 H2]. apply N.ltb_lt in H1.
        apply negb_true_iff, N.eqb_neq in H2. apply decode_sound in E. destruct E as [E _].
        exists [], c. rewrite E. unfold encode, encode_char. cbn. rewrite (proj2 (N.ltb_lt c 128)) by exact H1.
        repeat split; auto. discriminate.
      + intros (_ & pre & b & E & Hp & Hb & Hb' & Hd). destruct Hp as [->|(q & ->)].
        * cbn in E. subst s. cbn [decode]. rewrite (proj2 (N.ltb_lt b 128)) by exact Hb. cbn.
          rewrite (proj2 (N.ltb_lt b 128)) by exact Hb. rewrite (proj2 (N.eqb_neq b NL)) by exact Hb'. reflexivity.
        * exfalso. apply Hn. rewrite E. apply in_or_app. left. apply in_or_app. right. left. reflexivity.
    - rewrite read_results_line. cbn [concat].
      assert (Hcut : forall pre b, (a ++ [NL]) ++ concat l = pre ++ [b] -> b <> NL ->
                exists pre', concat l = pre' ++ [b] /\ pre = (a ++ [NL]) ++ pre').
      { intros pre b E Hb. destruct (concat l) as [|x y] eqn:El.
        - exfalso. rewrite app_nil_r in E. apply app_inj_tail in E. destruct E as [_ E]. congruence.
        - apply app_snoc_split in E; [|discriminate]. exact E. }
      destruct (decode (a ++ [NL])) as [s|] eqn:E.
      + cbn [ok_lines existsb]. apply decode_nl_end in E as E'; [|exact Ha]. destruct E' as (t & -> & _).
        rewrite one_byte_nl. cbn [orb]. rewrite IH. split.
        * intros (F & pre & b & E1 & Hp & Hb & Hb' & Hd). split; [exact F|].
          exists ((a ++ [NL]) ++ pre), b. rewrite E1, <- !app_assoc. split; [reflexivity|].
          split; [right|].
          -- destruct Hp as [->|(q & ->)]; [exists a; rewrite app_nil_r; reflexivity|].
             exists (a ++ [NL] ++ q). rewrite <- !app_assoc. reflexivity.
          -- repeat split; auto. rewrite app_assoc, decode_app_nl by eauto. rewrite E.
             destruct (decode pre); [discriminate|congruence].
        * intros (F & pre & b & E1 & Hp & Hb & Hb' & Hd). split; [exact F|].
          destruct (Hcut _ _ E1 Hb') as (pre' & E2 & ->). exists pre', b. split; [exact E2|]. split.
          -- destruct pre' as [|x y] eqn:Ep; [left; reflexivity|right].
             destruct Hp as [Hp|(q & Hp)]; [destruct a; discriminate|].
             apply app_snoc_split in Hp; [|discriminate]. destruct Hp as (b2 & Hp & _). eauto.
          -- repeat split; auto. rewrite decode_app_nl in Hd by eauto. rewrite E in Hd.
             destruct (decode pre'); congruence.
      + cbn. split; [discriminate|]. intros (F & pre & b & E1 & Hp & Hb & Hb' & Hd).
        destruct (Hcut _ _ E1 Hb') as (pre' & E2 & ->). exfalso. apply Hd.
        rewrite decode_app_nl by eauto. rewrite E. reflexivity.
  Qed.

  Theorem md_panic_bytes r :
    md_parse p r = Panic <-> rd_fail r = None /\ ends_in_one_byte (rd_bytes r).
  Proof.
    rewrite md_parse_spec. unfold one_byte_tail, read_lines.
    pose proof (tail_bytes (split_lines (rd_bytes r)) (rd_fail r) (split_lines_wf _)) as H.
    rewrite split_lines_concat in H. rewrite <- H.
    destruct (existsb one_byte _); split; congruence.
  Qed.
End Refine.
