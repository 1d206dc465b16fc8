(** The Markdown parser as a total machine that emits requirements and errors, and the proof
    that /repo's parser (MdParser.v) computes it.  This is an intermediate step of the proofs;
    the properties themselves are stated in PropsMd.v about [md_parse]. *)
From Verif Require Import Base OMap Models Unicode Regex Utf8 MdLex MdSyntax MdLexFacts ReadFacts MdParser.
Open Scope N_scope.

Inductive phase :=
| PStart                                        (* after the heading *)
| PDesc (d : str)                               (* in a paragraph of the description *)
| PDescNl (d : str)                             (* after an empty line in the description *)
| PAttr                                         (* an attribute must follow *)
| PText (a v : str)                             (* in a text attribute *)
| PLinks (cov : bool) (refs : list reference).  (* in Covers / Depends *)

Inductive cfg :=
| Idle (pending : option requirement)
| Active (r : requirement) (ph : phase).

Inductive kind :=
| KReq (id title : str)
| KHead
| KEmpty
| KLine.

Section Machine.
  Context {U : UnicodeTables} (p : path).

  Definition classify (l : str) : kind :=
    if eqb l [NL] then KEmpty
    else match scan_requirement l with
         | Some (_, id, t) => KReq id (trim t)
         | None => if starts_with_c HASH l then KHead else KLine
         end.

  Definition commit (r : requirement) (ph : phase) : requirement :=
    match ph with
    | PStart | PAttr => r
    | PDesc d | PDescNl d => set_attributes r (oins ATTR_DESCRIPTION d (req_attributes r))
    | PText a v => set_attributes r (oins a v (req_attributes r))
    | PLinks true v => set_covers r v
    | PLinks false v => set_depends r v
    end.

  Definition short_list (n : N) (v : str) : list reference :=
    flat_map (fun id =>
         let id := trim id in
         match id with [] => [] | _ => [mkReference id None (new_with_line_no p n)] end)
         (split_on COMMA (trim v)).

  Definition dup_error (n : N) (a : str) (r : requirement) : list error :=
    [EDuplicateAttribute (new_with_line_no p n) a (req_id r)].

  (** The phase and errors after the attribute line [a: v] at line [n]. *)
  Definition start_attr (n : N) (r : requirement) (a v : str) : phase * list error :=
    if eqb a ATTR_COVERS then
      (PLinks true (short_list n v), match req_covers r with [] => [] | _ => dup_error n a r end)
    else if eqb a ATTR_DEPENDS then
      (PLinks false (short_list n v), match req_depends r with [] => [] | _ => dup_error n a r end)
    else
      (PText a v, match oget a (req_attributes r) with None => [] | Some _ => dup_error n a r end).

  Definition msg_attr : str := L "Expected an Attribute line like `Comment:`".
  Definition msg_ref : str := L "Expected a Reference like `* REQ_ID: Title`".

  Definition line_step (r : requirement) (ph : phase) (n : N) (l : str) : cfg * list error :=
    let attr_or (other : cfg * list error) :=
      match scan_attribute l with
      | Some (a, v) =>
          let r := commit r ph in
          let '(ph', es) := start_attr n r a v in (Active r ph', es)
      | None => other
      end in
    match ph with
    | PStart => attr_or (Active r (PDesc l), [])
    | PDesc d => (Active r (PDesc (d ++ l)), [])
    | PDescNl d => attr_or (Active r (PDesc d), [])
    | PAttr => attr_or (Idle (Some r), [EFormat (new_with_line_no p n) msg_attr])
    | PText a v => attr_or (Active r (PText a (v ++ l)), [])
    | PLinks cov refs =>
        match scan_ref l with
        | Some (id, t) => (Active r (PLinks cov (refs ++ [mkReference id t (new_with_line_no p n)])), [])
        | None =>
            let r := commit r ph in
            match trim l with
            | [] => (Active r PAttr, [])
            | _ => (Idle (Some r), [EFormat (new_with_line_no p n) msg_ref])
            end
        end
    end.

  Definition empty_step (r : requirement) (ph : phase) : cfg :=
    match ph with
    | PStart | PAttr => Active r ph
    | PDesc d | PDescNl d => Active r (PDescNl (d ++ [NL]))
    | PText a v => Active r (PText a (v ++ [NL]))
    | PLinks _ _ => Active (commit r ph) PAttr
    end.

  Definition pending (c : cfg) : option requirement :=
    match c with Idle x => x | Active r ph => Some (commit r ph) end.
  Definition olist {A} (x : option A) : list A := match x with Some a => [a] | None => [] end.

  (** One line with number [n]: next configuration, requirements and errors emitted. *)
  Definition mstep (c : cfg) (n : N) (l : str) : cfg * list requirement * list error :=
    match classify l with
    | KReq id t =>
        (Active (mkRequirement id (Some t) (new_with_line_no p n) [] [] [] []) PStart, olist (pending c), [])
    | KHead => (Idle (pending c), [], [])
    | KEmpty => (match c with Idle _ => c | Active r ph => empty_step r ph end, [], [])
    | KLine =>
        match c with
        | Idle _ => (c, [], [])
        | Active r ph => let '(c', es) := line_step r ph n l in (c', [], es)
        end
    end.

  Fixpoint mrun (c : cfg) (n : N) (ls : list str) : cfg * list requirement * list error :=
    match ls with
    | [] => (c, [], [])
    | l :: ls' =>
        let '(c1, rs, es) := mstep c (n + 1) l in
        let '(c2, rs', es') := mrun c1 (n + 1) ls' in
        (c2, rs ++ rs', es ++ es')
    end.

  Definition finish (c : cfg) : list requirement :=
    match c with Idle _ => [] | Active r ph => [commit r ph] end.

  (** The result for lines [ls], ended by the end of the file or a read error. *)
  Definition mresult (ls : list str) (fail : option str) : list requirement * list error :=
    let '(c, rs, es) := mrun (Idle None) 0 ls in
    match fail with
    | None => (rs ++ finish c, es)
    | Some m => (rs, es ++ [EIo p m])
    end.

  (** ** Refinement *)
  Definition of_cfg (c : cfg) : state * option requirement :=
    match c with
    | Idle x => (LookForReq, x)
    | Active r PStart => (LookForDesc, Some r)
    | Active r (PDesc d) => (CollectDesc d, Some r)
    | Active r (PDescNl d) => (CollectDescNl d, Some r)
    | Active r PAttr => (LookForAttr, Some r)
    | Active r (PText a v) => (CollectTextAttr a v, Some r)
    | Active r (PLinks true v) => (CollectRefLink ATTR_COVERS v, Some r)
    | Active r (PLinks false v) => (CollectRefLink ATTR_DEPENDS v, Some r)
    end.

  (** The parser's context for a configuration. *)
  Definition ctx_of (c : cfg) (rs : list requirement) (es : list error) (n lvl : N) : context :=
    mkContext es rs (snd (of_cfg c)) n lvl.

  Lemma attr_covers_depends : eqb ATTR_DEPENDS ATTR_COVERS = false.
  Proof. reflexivity. Qed.

  Lemma commit_attr_ok es rs r n lvl a v :
    commit_attr (mkContext es rs (Some r) n lvl) a v =
    Done (mkContext es rs (Some (commit r (PText a v))) n lvl).
  Proof. reflexivity. Qed.

  Lemma commit_link_ok es rs r n lvl (cov : bool) v :
    commit_link_attr (mkContext es rs (Some r) n lvl) (if cov then ATTR_COVERS else ATTR_DEPENDS) v =
    Done (mkContext es rs (Some (commit r (PLinks cov v))) n lvl).
  Proof. destruct cov; reflexivity. Qed.

  Lemma start_attribute_ok es rs r n lvl a v :
    let '(ph, es') := start_attr n r a v in
    exists st, fst (of_cfg (Active r ph)) = st /\
    start_attribute p (mkContext es rs (Some r) n lvl) (attribute_caps (a, v)) =
    Done (mkContext (es ++ es') rs (Some r) n lvl, st).
  Proof.
    unfold start_attr, start_attribute. cbn [group attribute_caps fst snd Nat.eqb unwrap obind c_ruc].
    destruct (eqb a ATTR_COVERS) eqn:E1.
    - apply eqb_true in E1. subst a. eexists; split; [reflexivity|].
      destruct (req_covers r); [rewrite app_nil_r|]; reflexivity.
    - destruct (eqb a ATTR_DEPENDS) eqn:E2.
      + apply eqb_true in E2. subst a. eexists; split; [reflexivity|].
        destruct (req_depends r); [rewrite app_nil_r|]; reflexivity.
      + eexists; split; [reflexivity|].
        destruct (oget a (req_attributes r)); [|rewrite app_nil_r]; reflexivity.
  Qed.

  Lemma snd_of_start n r a v :
    snd (of_cfg (Active r (fst (start_attr n r a v)))) = Some r.
  Proof. unfold start_attr. destruct (eqb a ATTR_COVERS); [|destruct (eqb a ATTR_DEPENDS)]; reflexivity. Qed.

  Lemma ref_caps_1 x : group 1 (ref_caps x) = Some (fst x).
  Proof. unfold ref_caps. destruct (snd x); reflexivity. Qed.
  Lemma ref_caps_2 x : group 2 (ref_caps x) = snd x.
  Proof. unfold ref_caps. destruct (snd x); reflexivity. Qed.

  Definition emits (x : outcome (context * state)) (c' : cfg) (rs : list requirement)
    (es : list error) (n : N) : Prop :=
    exists lvl', x = Done (ctx_of c' rs es n lvl', fst (of_cfg c')).

  Lemma line_ok r ph n l rs es lvl :
    proper l ->
    let '(c', es') := line_step r ph n l in
    emits (parse_state_line p (fst (of_cfg (Active r ph))) l (ctx_of (Active r ph) rs es n lvl))
          c' rs (es ++ es') n.
  Proof.
    intros HP.
    assert (HA : forall r0 es1, 
      match scan_attribute l with
      | Some (a, v) =>
          let '(ph', es') := start_attr n r0 a v in
          emits (start_attribute p (mkContext es1 rs (Some r0) n lvl) (attribute_caps (a, v)))
                (Active r0 ph') rs (es1 ++ es') n
      | None => True
      end).
    { intros r0 es1. destruct (scan_attribute l) as [[a v]|]; [|exact I].
      pose proof (start_attribute_ok es1 rs r0 n lvl a v) as H. pose proof (snd_of_start n r0 a v) as H2.
      destruct (start_attr n r0 a v) as [ph' es']. destruct H as (st & <- & ->).
      exists lvl. unfold ctx_of. cbn [fst] in H2. rewrite H2. reflexivity. }
    unfold line_step.
    destruct ph as [|d|d| |a v|cov refs]; cbn [of_cfg fst snd parse_state_line ctx_of];
      try rewrite attribute_regex by exact HP.
    - specialize (HA r es). destruct (scan_attribute l) as [[a v]|]; cbn [option_map].
      + cbn [commit]. destruct (start_attr n r a v) as [ph' es']. exact HA.
      + exists lvl. rewrite app_nil_r. reflexivity.
    - exists lvl. rewrite app_nil_r. reflexivity.
    - specialize (HA (commit r (PDescNl d)) es).
      destruct (scan_attribute l) as [[a v]|]; cbn [option_map].
      + destruct (start_attr n _ a v) as [ph' es']. exact HA.
      + exists lvl. rewrite app_nil_r. reflexivity.
    - specialize (HA r es). destruct (scan_attribute l) as [[a v]|]; cbn [option_map].
      + cbn [commit]. destruct (start_attr n r a v) as [ph' es']. exact HA.
      + exists lvl. reflexivity.
    - specialize (HA (commit r (PText a v)) es).
      destruct (scan_attribute l) as [[a' v']|]; cbn [option_map].
      + destruct (start_attr n _ a' v') as [ph' es']. exact HA.
      + exists lvl. rewrite app_nil_r. reflexivity.
    - replace (fst (if cov then (CollectRefLink ATTR_COVERS refs, Some r)
                    else (CollectRefLink ATTR_DEPENDS refs, Some r)))
        with (CollectRefLink (if cov then ATTR_COVERS else ATTR_DEPENDS) refs) by (destruct cov; reflexivity).
      unfold ctx_of.
      replace (snd (of_cfg (Active r (PLinks cov refs)))) with (Some r) by (destruct cov; reflexivity).
      cbn [parse_state_line]. rewrite ref_regex by exact HP.
      destruct (scan_ref l) as [[id t]|]; cbn [option_map].
      + rewrite ref_caps_1, ref_caps_2. cbn [unwrap obind fst snd]. exists lvl. rewrite app_nil_r.
        destruct cov; reflexivity.
      + rewrite commit_link_ok. cbn [obind]. destruct (trim l).
        * exists lvl. rewrite app_nil_r. reflexivity.
        * exists lvl. reflexivity.
  Qed.

  Lemma empty_ok r ph n rs es lvl :
    emits (parse_state_empty (fst (of_cfg (Active r ph))) (ctx_of (Active r ph) rs es n lvl))
          (empty_step r ph) rs es n.
  Proof.
    destruct ph as [|d|d| |a v|[|] refs]; exists lvl; reflexivity.
  Qed.

  Lemma heading_ok c n rs es lvl :
    emits (parse_state_heading (fst (of_cfg c)) (ctx_of c rs es n lvl)) (Idle (pending c)) rs es n.
  Proof. destruct c as [x|r [|d|d| |a v|[|] refs]]; exists lvl; reflexivity. Qed.

  Lemma req_ok c n rs es lvl h id t :
    emits (parse_state_req p (fst (of_cfg c)) (ctx_of c rs es n lvl) (requirement_caps (h, id, t)))
      (Active (mkRequirement id (Some (trim t)) (new_with_line_no p n) [] [] [] []) PStart)
      (rs ++ olist (pending c)) es n.
  Proof.
    destruct c as [[x|]|r [|d|d| |a v|[|] refs]]; exists (byte_len h);
      cbn [pending olist]; rewrite ?app_nil_r; reflexivity.
  Qed.

  Lemma eof_ok c n rs es lvl :
    exists lvl' st x, parse_state_eof (fst (of_cfg c)) (ctx_of c rs es n lvl) =
      Done (mkContext es (rs ++ finish c) x n lvl', st).
  Proof.
    destruct c as [x|r [|d|d| |a v|[|] refs]]; exists lvl; cbn [finish]; rewrite ?app_nil_r;
      do 2 eexists; reflexivity.
  Qed.

  (** A line the reader can return and the parser does not panic on. *)
  Definition good_line (l : str) : Prop := l <> [] /\ proper l /\ (forall c, l = [c] -> c < 128 -> c = NL).

  Lemma step_ok c n l rs es lvl :
    good_line l ->
    exists ev, line_event l = Done ev /\
    let '(c', rs', es') := mstep c n l in
    emits (parse_states p (fst (of_cfg c)) (ctx_of c rs es n lvl) ev) c' (rs ++ rs') (es ++ es') n.
  Proof.
    intros (Hne & HP & H1). unfold line_event, mstep, classify.
    destruct (byte_len l =? 1) eqn:Eb.
    - apply N.eqb_eq in Eb. apply byte_len_1 in Eb. destruct Eb as (x & -> & Hx).
      assert (x = NL) by (apply H1; auto). subst x.
      exists EvEmpty. split; [reflexivity|]. change (eqb [NL] [NL]) with true. cbn iota.
      rewrite !app_nil_r. cbn [parse_states].
      destruct c as [y|r ph]; [exists lvl; reflexivity|apply empty_ok].
    - assert (Hk : eqb l [NL] = false).
      { destruct (eqb l [NL]) eqn:E; [|reflexivity]. apply eqb_true in E. subst l. discriminate. }
      rewrite Hk, requirement_regex by exact HP.
      destruct (scan_requirement l) as [[[h id] t]|]; cbn [option_map].
      + eexists. split; [reflexivity|]. rewrite app_nil_r. apply req_ok.
      + rewrite heading_regex. destruct (starts_with_c HASH l).
        * eexists. split; [reflexivity|]. rewrite !app_nil_r. apply heading_ok.
        * eexists. split; [reflexivity|]. destruct c as [x|r ph].
          -- rewrite !app_nil_r. exists lvl. reflexivity.
          -- pose proof (line_ok r ph n l rs es lvl HP) as H.
             destruct (line_step r ph n l) as [c' es']. rewrite app_nil_r. exact H.
  Qed.
End Machine.
