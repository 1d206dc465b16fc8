(** Facts about [md_parse] derived from the exact result. *)
From Verif Require Import Base OMap Models Unicode Regex Utf8 MdLex MdSyntax MdLexFacts ReadFacts
  MdParser MdSpec MdMachine MdRefine MdExact.
Open Scope N_scope.

(** The numbered lines of a file. *)
Definition doc_lines (r : reader) : list nline := number 0 (ok_lines (read_lines r)).
Definition doc_error (r : reader) : option str := read_error (read_lines r).
Definition io_error (p : path) (r : reader) : list error :=
  match doc_error r with Some m => [EIo p m] | None => [] end.

Section Facts.
  Context {U : UnicodeTables} (p : path) (r : reader).

  Definition doc_sections : list section := snd (sections (doc_lines r)).

  (** Is the last requirement lost?  By a read error, or because its section is not open. *)
  Definition last_lost (bes : list (list block * ending)) : bool :=
    match doc_error r with Some _ => true | None => last (map closed bes) false end.

  Theorem md_blocks_exist : exists bes, Forall2 section_ok doc_sections bes.
  Proof.
    unfold doc_sections. pose proof (sections_no_reqs (doc_lines r)) as [_ H].
    induction (snd (sections (doc_lines r))) as [|s ss IH]; [exists []; constructor|].
    destruct IH as (bes & IH); [intros s' Hs; apply H; right; exact Hs|].
    destruct (body_total (snd s)) as (bs & e & Hb); [apply H; left; reflexivity|].
    exists ((bs, e) :: bes). constructor; [exact Hb|exact IH].
  Qed.

  Theorem md_exact bes :
    Forall2 section_ok doc_sections bes ->
    md_parse p r <> Panic ->
    md_parse p r =
    Done (if last_lost bes then removelast (zip_reqs p doc_sections bes) else zip_reqs p doc_sections bes,
          zip_errs p doc_sections bes ++ io_error p r).
  Proof.
    intros HF HP. rewrite md_parse_spec in *. destruct (one_byte_tail (read_lines r)); [congruence|].
    f_equal. unfold mresult. rewrite mrun_number. fold (doc_lines r).
    pose proof (sections_no_reqs (doc_lines r)) as [HN _].
    destruct (run_sections p (doc_lines r) bes HF (Idle None)) as (c2 & rs & E1 & E2 & E3 & E4).
    fold doc_sections in *. rewrite (run_idle p None _ HN) in E1, E2, E3, E4. cbn [fst snd app] in *.
    cbn [pending olist app idle] in *.
    rewrite E1. fold (doc_error r). unfold io_error, last_lost.
    assert (Hrm : forall b : bool, (bes <> [] -> b = true -> True) ->
              rs = removelast (zip_reqs p doc_sections bes)).
    { intros _ _. destruct bes as [|be bes].
      - rewrite <- E2. inversion HF as [Hs|]. rewrite <- Hs in E2. cbn in E2. apply app_eq_nil in E2.
        destruct E2 as [-> ->]. reflexivity.
      - assert (Hp : pending c2 <> None) by (apply E4; right; discriminate). destruct (pending c2) as [x|]; [|congruence].
        rewrite <- E2. cbn. rewrite removelast_last. reflexivity. }
    destruct (doc_error r) as [m|].
    - f_equal. apply (Hrm true). auto.
    - rewrite app_nil_r. f_equal.
      destruct bes as [|be bes].
      + cbn [map last]. inversion HF as [Hs|]. rewrite <- Hs in *. cbn in E2 |- *.
        apply app_eq_nil in E2. destruct E2 as [-> E2].
        cbn in E3. destruct c2; [reflexivity|discriminate].
      + cbn [map] in *. rewrite MdLexFacts.last_shift in *. rewrite <- E3.
        destruct c2 as [x|r2 ph]; cbn [idle].
        * cbn [finish]. rewrite app_nil_r. apply (Hrm true). auto.
        * cbn [finish]. cbn [pending olist] in E2. exact E2.
  Qed.
End Facts.
