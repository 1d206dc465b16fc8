(** The regular expressions of the Markdown parser compute the scanners of MdSyntax.v. *)
From Verif Require Import Base Unicode Regex MdLex MdSyntax.
Open Scope N_scope.

(** ** Line feeds *)
Lemma chomp_nl a : chomp (a ++ [NL]) = a.
Proof. unfold chomp. rewrite rev_app_distr. cbn. apply rev_involutive. Qed.

Lemma chomp_cases w : (w = chomp w /\ (forall a, w <> a ++ [NL])) \/ w = chomp w ++ [NL].
Proof.
  unfold chomp. destruct (rev w) as [|c r] eqn:E.
  - left. apply (f_equal (@rev _)) in E. rewrite rev_involutive in E. cbn in E. subst. split; [reflexivity|].
    intros [|? ?]; discriminate.
  - apply (f_equal (@rev _)) in E. rewrite rev_involutive in E. cbn in E.
    destruct (N.eqb_spec c NL) as [->|Hn]; [right; exact E|left; split; [reflexivity|]].
    intros a Ha. rewrite Ha in E. apply app_inj_tail in E. destruct E. congruence.
Qed.

Lemma proper_nl a : ~ In NL a -> proper (a ++ [NL]).
Proof. unfold proper. rewrite chomp_nl. auto. Qed.
Lemma proper_no_nl a : ~ In NL a -> proper a.
Proof.
  unfold proper. intros H. destruct (chomp_cases a) as [[E _]|E].
  - rewrite <- E. exact H.
  - intros _. apply H. rewrite E. apply in_or_app. right. left. reflexivity.
Qed.

(** A proper line is [a] or [a ++ [NL]] with no line feed in [a]. *)
Lemma proper_cases w : proper w -> exists a, ~ In NL a /\ chomp w = a /\ (w = a \/ w = a ++ [NL]).
Proof.
  intros H. exists (chomp w). split; [exact H|]. split; [reflexivity|].
  destruct (chomp_cases w) as [[E _]|E]; auto.
Qed.

Lemma chomp_no_nl a : ~ In NL a -> chomp a = a.
Proof.
  intros H. destruct (chomp_cases a) as [[E _]|E]; [auto|].
  exfalso. apply H. rewrite E. apply in_or_app. right. left. reflexivity.
Qed.

Lemma chomp_app a b : b <> [] -> chomp (a ++ b) = a ++ chomp b.
Proof.
  intros Hb. destruct (chomp_cases b) as [[E Hn]|E].
  - rewrite <- E. destruct (chomp_cases (a ++ b)) as [[E' _]|E']; [auto|].
    exfalso. destruct (exists_last Hb) as (b0 & c & ->).
    rewrite app_assoc in E'. apply app_inj_tail in E'. destruct E' as [_ ->]. apply (Hn b0). reflexivity.
  - rewrite E at 1. rewrite app_assoc, chomp_nl. reflexivity.
Qed.

Lemma proper_app a b : proper (a ++ b) -> proper b.
Proof.
  destruct b as [|c b]; [intros _ H; exact H|].
  unfold proper. rewrite chomp_app by discriminate. intros H Hi. apply H. apply in_or_app. auto.
Qed.

Lemma proper_cons c b : proper (c :: b) -> proper b.
Proof. exact (proper_app [c] b). Qed.

Lemma dot_no_nl a : ~ In NL a -> forallb dot a = true.
Proof.
  intros H. apply forallb_forall. intros c Hc. unfold dot.
  destruct (N.eqb_spec c NL); [subst; contradiction|reflexivity].
Qed.

Lemma ws_nl : is_ws NL = true. Proof. reflexivity. Qed.

(** ** Building blocks *)
Lemma bm_star_bol s k : bm (Star true Bol) s k = k s.
Proof.
  cbn [bm]. destruct (length (m_rest s)) as [|n]; [reflexivity|].
  cbn zeta. destruct (Nat.eqb (m_pos s) 0); [|reflexivity].
  rewrite Nat.ltb_irrefl. reflexivity.
Qed.

(** `\s*$` *)
Definition tail_end (s : mst) : option mst := bm (Seq re_ws Eol) s Some.

Lemma tail_end_spec pos w caps :
  tail_end (mkMst pos w caps) =
  if forallb is_ws w then Some (mkMst (pos + length w) [] caps) else None.
Proof.
  unfold tail_end. cbn [bm]. fold (bm re_ws). unfold re_ws. 
  rewrite (bm_star_greedy is_ws (fun s' => match m_rest s' with [] => Some s' | _ => None end)).
  cbn [m_pos m_rest m_caps].
  destruct (forallb is_ws w) eqn:E.
  - rewrite <- (app_nil_r w) at 1. apply greedy_first; [exact E|exact I|reflexivity].
  - apply greedy_none. intros a b -> Ha. cbn [m_rest].
    destruct b; [|reflexivity]. rewrite app_nil_r in E. congruence.
Qed.

Lemma firstn_len_app {A} (a b : list A) n : n = length a -> firstn n (a ++ b) = a.
Proof. intros ->. rewrite firstn_app, Nat.sub_diag, firstn_all. cbn. apply app_nil_r. Qed.

(** `(.+?)\s*$`: everything up to the trailing white space, but at least one character. *)
Lemma lazy_title g pos w caps :
  proper w ->
  bm (Grp g (Plus false (Cls dot))) (mkMst pos w caps) tail_end =
  match w with
  | [] => None
  | c :: w' => if c =? NL then None
               else Some (mkMst (pos + length w) [] ((g, c :: trim_end w') :: caps))
  end.
Proof.
  intros HP. unfold Plus. cbn [bm m_rest m_pos m_caps].
  destruct w as [|c w]; [reflexivity|].
  unfold dot at 1. destruct (N.eqb_spec c NL) as [->|Hn]; [reflexivity|]. cbn [negb].
  destruct (trim_end_decomp w) as (b & Hb & Hwb).
  pose proof (proper_cons _ _ HP) as HPw.
  set (t := trim_end w) in *.
  assert (Hlast : match rev t with [] => True | x :: _ => is_ws x = false end).
  { unfold t, trim_end. rewrite rev_involutive. apply trim_start_first. }
  assert (Ht : ~ In NL t).
  { intros Hi. destruct (proper_cases _ HPw) as (a & Ha & _ & Hw).
    assert (Hd : exists t', t = t' ++ [NL]).
    { destruct b as [|x b].
      - rewrite app_nil_r in Hb. destruct Hw as [Hw|Hw]; [exfalso; apply Ha; congruence|].
        exists a. congruence.
      - exfalso. destruct Hw as [Hw|Hw].
        + apply Ha. rewrite <- Hw, Hb. apply in_or_app. auto.
        + rewrite Hb in Hw. destruct (@exists_last _ (x :: b) ltac:(discriminate)) as (b' & y & Hy).
          rewrite Hy, app_assoc in Hw. apply app_inj_tail in Hw. destruct Hw as [Hw _].
          apply Ha. rewrite <- Hw. apply in_or_app. auto. }
    destruct Hd as (t' & Ht'). rewrite Ht', rev_app_distr in Hlast. cbn in Hlast. discriminate. }
  match goal with
  | |- ?lhs = _ =>
    change lhs with
      (bm (Star false (Cls dot)) (mkMst (S pos) w caps)
         (fun s' => tail_end (mkMst (m_pos s') (m_rest s')
            ((g, firstn (m_pos s' - pos) (c :: w)) :: m_caps s'))))
  end.
  rewrite bm_star_lazy. cbn [m_pos m_rest m_caps].
  rewrite Hb at 1. apply lazy_first.
  - apply dot_no_nl, Ht.
  - intros a1 a2 Ha Hne. cbn [m_pos m_rest m_caps]. rewrite tail_end_spec.
    destruct (forallb is_ws (a2 ++ b)) eqn:E; [exfalso|reflexivity].
    rewrite forallb_app in E. apply andb_true_iff in E. destruct E as [E _].
    destruct (exists_last Hne) as (a3 & y & ->).
    rewrite Ha, app_assoc, rev_app_distr in Hlast. cbn in Hlast.
    rewrite forallb_app in E. cbn in E. rewrite Hlast in E. rewrite andb_false_r in E. discriminate.
  - cbn [m_pos m_rest m_caps]. rewrite tail_end_spec, Hwb. f_equal. f_equal.
    + cbn [length]. rewrite Hb at 1. rewrite app_length. lia.
    + f_equal. f_equal. rewrite Hb at 1.
      change (c :: t ++ b) with ((c :: t) ++ b). apply firstn_len_app. cbn [length]. lia.
Qed.

Lemma greedy_skip p k a b pos caps x :
  forallb p a = true -> greedy_run p k (pos + length a) b caps = Some x ->
  greedy_run p k pos (a ++ b) caps = Some x.
Proof.
  revert pos. induction a as [|c a IH]; intros pos Ha Hk; cbn [app length] in *.
  - rewrite Nat.add_0_r in Hk. exact Hk.
  - cbn [forallb] in Ha. apply andb_true_iff in Ha. destruct Ha as [H1 H2].
    cbn [greedy_run]. rewrite H1, (IH _ H2); [reflexivity|]. rewrite <- Hk. f_equal. lia.
Qed.

Lemma last_shift {A} (y : list A) : forall x d, last (x :: y) d = last y x.
Proof.
  induction y as [|z y IH]; intros x d; [reflexivity|].
  change (last (x :: z :: y) d) with (last (z :: y) d). rewrite !IH. reflexivity.
Qed.

(** `\s*(.+?)\s*$` *)
Lemma title_spec g pos w caps :
  proper w ->
  bm re_ws (mkMst pos w caps) (fun s => bm (Grp g (Plus false (Cls dot))) s tail_end) =
  match scan_title w with
  | Some t => Some (mkMst (pos + length w) [] ((g, t) :: caps))
  | None => None
  end.
Proof.
  intros HP. unfold re_ws.
  rewrite (bm_star_greedy is_ws). cbn [m_pos m_rest m_caps].
  set (k := fun s => bm (Grp g (Plus false (Cls dot))) s tail_end).
  destruct (proper_cases w HP) as (c0 & Hnl & Hc & Hw).
  destruct (trim_start_decomp w) as (a & Ha & Hwa).
  destruct (trim_start w) as [|c r] eqn:Et.
  - (* only white space *)
    rewrite app_nil_r in Ha. subst a.
    unfold scan_title. rewrite Hc. destruct c0 as [|x y].
    + destruct Hw as [->| ->]; reflexivity.
    + assert (Htr : trim (x :: y) = []).
      { apply trim_nil. destruct Hw as [Hw|Hw]; rewrite Hw in Hwa; [exact Hwa|].
        rewrite forallb_app in Hwa. apply andb_true_iff in Hwa. apply Hwa. }
      rewrite Htr.
      destruct (@exists_last _ (x :: y) ltac:(discriminate)) as (i & l & Hl).
      assert (Hlast : last y x = l).
      { rewrite <- (last_shift y x 0), Hl. apply last_last. }
      rewrite Hlast.
      assert (Hln : l <> NL).
      { intros ->. apply Hnl. rewrite Hl. apply in_or_app. right. left. reflexivity. }
      rewrite Hl in Hw.
      assert (Hi : forallb is_ws i = true /\ is_ws l = true).
      { destruct Hw as [Hw|Hw]; rewrite Hw, !forallb_app in Hwa; cbn in Hwa;
          rewrite !andb_true_iff in Hwa; tauto. }
      destruct Hi as [Hi Hil].
      assert (Hend : exists e, w = i ++ l :: e /\ (e = [] \/ e = [NL])).
      { destruct Hw as [->| ->]; [exists []|exists [NL]]; rewrite <- ?app_assoc; cbn; auto. }
      destruct Hend as (e & We & He).
      assert (HPe : proper (l :: e)) by (rewrite We in HP; apply (proper_app i), HP).
      rewrite We. apply greedy_skip; [exact Hi|].
      cbn [greedy_run]. rewrite Hil.
      assert (Hk1 : greedy_run is_ws k (S (pos + length i)) e caps = None).
      { destruct He as [->| ->]; reflexivity. }
      rewrite Hk1. cbn [orelse]. unfold k. rewrite lazy_title by exact HPe.
      destruct (N.eqb_spec l NL); [contradiction|]. f_equal. f_equal.
      * rewrite app_length. cbn [length]. lia.
      * f_equal. f_equal. f_equal. destruct He as [->| ->]; reflexivity.
  - assert (Hcw : is_ws c = false) by (pose proof (trim_start_first w) as H; rewrite Et in H; exact H).
    assert (Hcn : c <> NL) by (intros ->; discriminate).
    assert (HPr : proper (c :: r)) by (rewrite Ha in HP; apply (proper_app a), HP).
    assert (Hsc : scan_title w = Some (c :: trim_end r)).
    { unfold scan_title.
      assert (Hch : chomp w = a ++ chomp (c :: r)) by (rewrite Ha at 1; apply chomp_app; discriminate).
      assert (Hcr : chomp (c :: r) = c :: chomp r).
      { destruct r as [|x r]; [apply chomp_no_nl; intros [H|[]]; congruence|].
        exact (chomp_app [c] (x :: r) ltac:(discriminate)). }
      rewrite Hcr in Hch.
      assert (Htrim : trim (chomp w) = c :: trim_end r).
      { rewrite Hch. unfold trim. rewrite trim_start_ws by exact Hwa. rewrite trim_start_head by exact Hcw.
        assert (Hte : trim_end (c :: chomp r) = trim_end (c :: r)).
        { destruct (chomp_cases r) as [[E _]|E]; [rewrite <- E; reflexivity|].
          rewrite E at 2. change (c :: chomp r ++ [NL]) with ((c :: chomp r) ++ [NL]).
          rewrite trim_end_ws; reflexivity. }
        rewrite Hte. destruct (trim_end_decomp r) as (b & Hb & Hwb).
        rewrite Hb at 1. change (c :: trim_end r ++ b) with ((c :: trim_end r) ++ b).
        rewrite trim_end_ws by exact Hwb.
        destruct (trim_end r) as [|x t] eqn:Er.
        - unfold trim_end. cbn. rewrite Hcw. reflexivity.
        - destruct (@exists_last _ (x :: t) ltac:(discriminate)) as (t' & z & Hz).
          rewrite Hz. change (c :: t' ++ [z]) with ((c :: t') ++ [z]). apply trim_end_last.
          unfold trim_end in Er. pose proof (trim_start_first (rev r)) as Hf.
          apply (f_equal (@rev _)) in Er. rewrite rev_involutive in Er. rewrite Er, Hz, rev_app_distr in Hf.
          exact Hf. }
      destruct (chomp w) as [|x y] eqn:Ecw; [destruct a; discriminate|].
      rewrite Htrim. reflexivity. }
    rewrite Hsc. rewrite Ha at 1. apply greedy_first; [exact Hwa|exact Hcw|].
    unfold k. rewrite lazy_title by exact HPr.
    destruct (N.eqb_spec c NL); [contradiction|]. f_equal. f_equal.
    rewrite Ha at 1. rewrite app_length. lia.
Qed.

Section Lex.
  Context {U : UnicodeTables}.

  Lemma xid_continue_ascii_false c :
    c < 128 -> is_upper_ascii c || is_lower_ascii c || is_digit_ascii c || (c =? 95) = false ->
    xid_continue c = false.
  Proof. intros H E. rewrite xid_continue_ascii by exact H. exact E. Qed.
  Lemma xid_continue_colon : xid_continue COLON = false.
  Proof. apply xid_continue_ascii_false; reflexivity. Qed.
  Lemma xid_continue_hash : xid_continue HASH = false.
  Proof. apply xid_continue_ascii_false; reflexivity. Qed.
  Lemma xid_start_hash : xid_start HASH = false.
  Proof. rewrite xid_start_ascii by reflexivity. reflexivity. Qed.
  Lemma xid_start_not_ws c : xid_start c = true -> is_ws c = false.
  Proof. intros H. apply xid_continue_not_ws, xid_start_continue, H. Qed.

  Lemma scan_id_eq w id r : scan_id w = Some (id, r) -> w = id ++ r.
  Proof.
    unfold scan_id. destruct w as [|c w]; [discriminate|]. destruct (xid_start c); [|discriminate].
    pose proof (span_eq xid_continue w) as E. destruct (span xid_continue w) as [[|a0 a] b]; [discriminate|].
    intros H. inversion H; subst. reflexivity.
  Qed.

  (** `(\p{XID_Start}\p{XID_Continue}+)` before something that is no identifier character *)
  Lemma id_spec n pos w caps k :
    (forall pos c w caps, xid_continue c = true -> k (mkMst pos (c :: w) caps) = None) ->
    bm (Grp n re_id) (mkMst pos w caps) k =
    match scan_id w with
    | Some (id, r) => k (mkMst (pos + length id) r ((n, id) :: caps))
    | None => None
    end.
  Proof.
    intros Hk. unfold re_id, Plus. cbn [bm m_rest m_pos m_caps].
    destruct w as [|c w]; [reflexivity|]. unfold scan_id. destruct (xid_start c); [|reflexivity].
    cbn [m_rest m_pos m_caps].
    destruct w as [|c1 w]; [reflexivity|].
    cbn [span]. destruct (xid_continue c1) eqn:E1; [|reflexivity].
    pose proof (span_eq xid_continue w) as Heq. pose proof (span_all xid_continue w) as Hall.
    pose proof (span_stop xid_continue w) as Hstop.
    destruct (span xid_continue w) as [a b] eqn:Es. cbn [fst snd] in *.
    match goal with
    | |- ?lhs = _ =>
      change lhs with
        (bm (Star true (Cls xid_continue)) (mkMst (S (S pos)) w caps)
           (fun s' => k (mkMst (m_pos s') (m_rest s')
              ((n, firstn (m_pos s' - pos) (c :: c1 :: w)) :: m_caps s'))))
    end.
    rewrite bm_star_greedy. cbn [m_pos m_rest m_caps]. rewrite <- Heq.
    rewrite greedy_max.
    - cbn [m_pos m_rest m_caps length]. f_equal. f_equal; [lia|]. f_equal. f_equal.
      change (c :: c1 :: a ++ b) with ((c :: c1 :: a) ++ b). apply firstn_len_app. cbn [length]. lia.
    - exact Hall.
    - destruct b as [|x b]; [exact I|]. apply (Hstop x b). reflexivity.
    - intros. cbn [m_pos m_rest m_caps]. apply Hk. assumption.
  Qed.

  (** ** Anchored search *)
  Lemma search_anchored r pos w : (0 < pos)%nat -> search (Seq Bol r) pos w = None.
  Proof.
    revert pos. induction w as [|c w IH]; intros pos H; cbn [search bm m_pos];
      destruct (Nat.eqb_spec pos 0); try lia; cbn [orelse]; [reflexivity|]. apply IH. lia.
  Qed.
  Lemma search_bol r w : search (Seq Bol r) 0 w = bm r (mkMst 0 w []) Some.
  Proof.
    destruct w as [|c w]; cbn [search].
    - cbn [bm m_pos Nat.eqb]. apply orelse_none_r.
    - rewrite search_anchored by lia. rewrite orelse_none_r. reflexivity.
  Qed.

  (** ** The lines *)
  Theorem heading_regex w : is_match HEADING_LINE w = starts_with_c HASH w.
  Proof.
    unfold is_match, HEADING_LINE. rewrite search_bol. unfold Plus, Chr. cbn [bm m_rest m_pos m_caps].
    destruct w as [|c w]; [reflexivity|]. cbn [starts_with_c]. rewrite (N.eqb_sym c).
    destruct (HASH =? c); [|reflexivity]. cbn [m_rest m_pos m_caps].
    match goal with
    | |- match ?x with _ => _ end = true => assert (H : exists s, x = Some s); [|destruct H as [s ->]; reflexivity]
    end.
    match goal with
    | |- exists s, ?lhs = _ =>
      change lhs with
        (bm (Star true (Cls (N.eqb HASH))) (mkMst 1 w [])
           (fun s' => Some (mkMst (m_pos s') (m_rest s')
              ((1%nat, firstn (m_pos s' - 0) (c :: w)) :: m_caps s'))))
    end.
    rewrite bm_star_greedy. cbn [m_pos m_rest m_caps].
    pose proof (span_eq (N.eqb HASH) w) as Heq. rewrite <- Heq. eexists. apply greedy_first.
    - apply span_all.
    - destruct (snd (span (N.eqb HASH) w)) as [|x r] eqn:E; [exact I|]. apply (span_stop _ _ _ _ E).
    - reflexivity.
  Qed.

  Definition requirement_caps (x : str * str * str) : list (nat * str) :=
    let '(h, id, t) := x in [(3%nat, t); (2%nat, id); (1%nat, h)].

  (** white space before something that does not start with white space *)
  Lemma ws_spec pos w caps k :
    (forall pos c w caps, is_ws c = true -> k (mkMst pos (c :: w) caps) = None) ->
    bm re_ws (mkMst pos w caps) k =
    k (mkMst (pos + (length w - length (trim_start w))) (trim_start w) caps).
  Proof.
    intros Hk. unfold re_ws. rewrite bm_star_greedy. cbn [m_pos m_rest m_caps].
    destruct (trim_start_decomp w) as (a & Ha & Hwa).
    rewrite Ha at 1. rewrite greedy_max; [|exact Hwa| |exact Hk].
    - f_equal. f_equal. assert (H : length w = (length a + length (trim_start w))%nat)
        by (rewrite Ha at 1; apply app_length). lia.
    - pose proof (trim_start_first w) as H. destruct (trim_start w); exact H.
  Qed.

  Lemma chr_spec c pos w caps k :
    bm (Chr c) (mkMst pos w caps) k =
    match w with
    | x :: w' => if x =? c then k (mkMst (S pos) w' caps) else None
    | [] => None
    end.
  Proof. unfold Chr. cbn [bm m_rest m_pos m_caps]. destruct w; [reflexivity|]. rewrite N.eqb_sym. reflexivity. Qed.

  Lemma bm_seq a b s k : bm (Seq a b) s k = bm a s (fun s' => bm b s' k).
  Proof. reflexivity. Qed.

  Lemma id_fails_on (q : chr -> bool) n k :
    (forall c, q c = true -> xid_start c = false) ->
    forall pos c w caps, q c = true -> bm (Grp n re_id) (mkMst pos (c :: w) caps) k = None.
  Proof. intros Hq pos c w caps H. unfold re_id. cbn [bm m_rest]. rewrite (Hq _ H). reflexivity. Qed.

  Lemma ws_not_start c : is_ws c = true -> xid_start c = false.
  Proof. intros H. destruct (xid_start c) eqn:E; [|reflexivity]. apply xid_start_not_ws in E. congruence. Qed.

  Theorem requirement_regex w :
    proper w ->
    captures REQUIREMENT_LINE w = option_map requirement_caps (scan_requirement w).
  Proof.
    intros HP. unfold captures, REQUIREMENT_LINE. rewrite search_bol. rewrite bm_seq.
    unfold Plus at 1, Chr at 1 2. cbn [bm m_rest m_pos m_caps].
    unfold scan_requirement. destruct w as [|c w]; [reflexivity|].
    cbn [span]. destruct (HASH =? c) eqn:Ec; [|reflexivity].
    assert (HPw := proper_cons _ _ HP).
    cbn [m_rest m_pos m_caps].
    pose proof (span_eq (N.eqb HASH) w) as Heq. pose proof (span_all (N.eqb HASH) w) as Hall.
    pose proof (span_stop (N.eqb HASH) w) as Hstop.
    destruct (span (N.eqb HASH) w) as [a b] eqn:Es. cbn [fst snd] in *.
    set (K := fun s => bm (Seq re_ws (Seq (Grp 2 re_id) (Seq (Chr COLON)
              (Seq re_ws (Seq (Grp 3 (Plus false (Cls dot))) (Seq re_ws Eol)))))) s Some).
    match goal with
    | |- match ?lhs with _ => _ end = _ =>
      change lhs with
        (bm (Star true (Cls (N.eqb HASH))) (mkMst 1 w [])
           (fun s' => K (mkMst (m_pos s') (m_rest s')
              ((1%nat, firstn (m_pos s' - 0) (c :: w)) :: m_caps s'))))
    end.
    rewrite bm_star_greedy. cbn [m_pos m_rest m_caps].
    (* what follows the hashes *)
    assert (HK : forall pos r caps, proper r ->
      K (mkMst pos r caps) =
      match scan_id (trim_start r) with
      | Some (id, c :: r') =>
          if c =? COLON then
            match scan_title r' with
            | Some t => Some (mkMst (S (pos + (length r - length (trim_start r)) + length id) + length r') []
                                    ((3%nat, t) :: (2%nat, id) :: caps))
            | None => None end
          else None
      | _ => None
      end).
    { intros pos r caps HPr. unfold K. rewrite bm_seq, ws_spec.
      - rewrite bm_seq, id_spec.
        + destruct (scan_id (trim_start r)) as [[id r']|] eqn:Eid; [|reflexivity].
          rewrite bm_seq, chr_spec. destruct r' as [|x r']; [reflexivity|].
          destruct (x =? COLON); [|reflexivity].
          apply title_spec.
          apply scan_id_eq in Eid. destruct (trim_start_decomp r) as (p & Hp & _).
          rewrite Hp, Eid in HPr. apply proper_app, proper_app, proper_cons in HPr. exact HPr.
        + intros p0 x y z Hx. rewrite bm_seq, chr_spec.
          destruct (N.eqb_spec x COLON) as [->|]; [|reflexivity].
          rewrite xid_continue_colon in Hx. discriminate.
      - intros p0 x y z Hx. rewrite bm_seq. apply (id_fails_on is_ws); [apply ws_not_start|exact Hx]. }
    assert (HPb : proper b) by (rewrite <- Heq in HPw; apply proper_app in HPw; exact HPw).
    rewrite <- Heq. rewrite greedy_max.
    - cbn [m_pos m_rest m_caps]. rewrite HK by exact HPb.
      replace (firstn (1 + length a - 0) (c :: a ++ b)) with (c :: a).
      2:{ symmetry. change (c :: a ++ b) with ((c :: a) ++ b). apply firstn_len_app. cbn [length]. lia. }
      apply N.eqb_eq in Ec. subst c.
      destruct (scan_id (trim_start b)) as [[id [|x r']]|]; try reflexivity.
      destruct (x =? COLON); [|reflexivity]. destruct (scan_title r') as [t|]; reflexivity.
    - exact Hall.
    - destruct b as [|x b]; [exact I|]. apply (Hstop x b). reflexivity.
    - intros p0 x y z Hx. cbn [m_pos m_rest m_caps]. unfold K. rewrite bm_seq.
      apply N.eqb_eq in Hx. subst x. rewrite ws_spec.
      + rewrite trim_start_head by reflexivity. rewrite bm_seq.
        apply (id_fails_on (N.eqb HASH)); [|reflexivity].
        intros q Hq. apply N.eqb_eq in Hq. subst q. apply xid_start_hash.
      + intros p1 x1 y1 z1 Hx1. rewrite bm_seq. apply (id_fails_on is_ws); [apply ws_not_start|exact Hx1].
  Qed.
End Lex.

Section Lex2.
  Context {U : UnicodeTables}.

  Definition attribute_caps (x : str * str) : list (nat * str) :=
    [(2%nat, snd x); (1%nat, fst x)].

  Lemma is_lower_colon : is_lower_ascii COLON = false. Proof. reflexivity. Qed.

  (** `\s*( .* )\s*$` *)
  Lemma value_spec g pos w caps :
    proper w ->
    bm re_ws (mkMst pos w caps) (fun s => bm (Grp g (Star true (Cls dot))) s tail_end) =
    Some (mkMst (pos + length w) [] ((g, chomp (trim_start w)) :: caps)).
  Proof.
    intros HP. unfold re_ws. rewrite bm_star_greedy. cbn [m_pos m_rest m_caps].
    destruct (trim_start_decomp w) as (a & Ha & Hwa).
    set (r := trim_start w) in *.
    assert (HPr : proper r) by (rewrite Ha in HP; apply proper_app in HP; exact HP).
    assert (Hlen : length w = (length a + length r)%nat) by (rewrite Ha at 1; apply app_length).
    rewrite Ha at 1. apply greedy_first; [exact Hwa| |].
    { unfold r. pose proof (trim_start_first w) as H. destruct (trim_start w); exact H. }
    match goal with
    | |- ?lhs = _ =>
      change lhs with
        (bm (Star true (Cls dot)) (mkMst (pos + length a) r caps)
           (fun s' => tail_end (mkMst (m_pos s') (m_rest s')
              ((g, firstn (m_pos s' - (pos + length a)) r) :: m_caps s'))))
    end.
    rewrite bm_star_greedy. cbn [m_pos m_rest m_caps].
    destruct (proper_cases r HPr) as (v & Hv & Hc & Hr). rewrite Hc.
    assert (Hend : exists e, r = v ++ e /\ forallb is_ws e = true /\
                             match e with x :: _ => dot x = false | [] => True end).
    { destruct Hr as [->| ->]; [exists []; rewrite app_nil_r|exists [NL]]; cbn; auto. }
    destruct Hend as (e & He & Hwe & Hde). rewrite He at 1.
    apply greedy_first; [apply dot_no_nl, Hv|exact Hde|]. cbn [m_pos m_rest m_caps].
    rewrite tail_end_spec, Hwe. f_equal. f_equal.
    - rewrite Hlen, He, app_length. lia.
    - f_equal. f_equal. rewrite He. apply firstn_len_app. lia.
  Qed.

  Theorem attribute_regex w :
    proper w ->
    captures ATTRIBUTE_LINE w = option_map attribute_caps (scan_attribute w).
  Proof.
    intros HP. unfold captures, ATTRIBUTE_LINE. rewrite search_bol. rewrite bm_seq.
    unfold Plus at 1. cbn [bm m_rest m_pos m_caps].
    unfold scan_attribute. destruct w as [|u w]; [reflexivity|].
    destruct (is_upper_ascii u); [|reflexivity].
    assert (HPw := proper_cons _ _ HP).
    cbn [m_rest m_pos m_caps].
    destruct w as [|c w]; [reflexivity|]. cbn [span].
    destruct (is_lower_ascii c) eqn:Ec; [|reflexivity].
    assert (HPc := proper_cons _ _ HPw).
    cbn [m_rest m_pos m_caps].
    pose proof (span_eq is_lower_ascii w) as Heq. pose proof (span_all is_lower_ascii w) as Hall.
    pose proof (span_stop is_lower_ascii w) as Hstop.
    destruct (span is_lower_ascii w) as [a b] eqn:Es. cbn [fst snd] in *.
    set (K := fun s => bm (Seq (Chr COLON)
              (Seq re_ws (Seq (Grp 2 (Star true (Cls dot))) (Seq re_ws Eol)))) s Some).
    match goal with
    | |- match ?lhs with _ => _ end = _ =>
      change lhs with
        (bm (Star true (Cls is_lower_ascii)) (mkMst 2 w [])
           (fun s' => K (mkMst (m_pos s') (m_rest s')
              ((1%nat, firstn (m_pos s' - 0) (u :: c :: w)) :: m_caps s'))))
    end.
    rewrite bm_star_greedy. cbn [m_pos m_rest m_caps]. rewrite <- Heq. rewrite greedy_max.
    - cbn [m_pos m_rest m_caps]. unfold K. rewrite bm_seq, chr_spec.
      destruct b as [|x b]; [reflexivity|]. destruct (x =? COLON); [|reflexivity].
      match goal with
      | |- match bm _ ?s _ with _ => _ end = _ =>
        change (bm (Seq re_ws (Seq (Grp 2 (Star true (Cls dot))) (Seq re_ws Eol))) s Some)
          with (bm re_ws s (fun s' => bm (Grp 2 (Star true (Cls dot))) s' tail_end))
      end.
      rewrite value_spec.
      + cbn [m_caps option_map]. unfold attribute_caps. cbn [fst snd]. do 4 f_equal.
        change (u :: c :: a ++ x :: b) with ((u :: c :: a) ++ x :: b). apply firstn_len_app. cbn [length]. lia.
      + rewrite <- Heq in HPc. apply proper_app, proper_cons in HPc. exact HPc.
    - exact Hall.
    - destruct b as [|x b]; [exact I|]. apply (Hstop x b). reflexivity.
    - intros p0 x y z Hx. cbn [m_pos m_rest m_caps]. unfold K. rewrite bm_seq, chr_spec.
      destruct (N.eqb_spec x COLON) as [->|]; [|reflexivity]. discriminate.
  Qed.

  Definition ref_caps (x : str * option str) : list (nat * str) :=
    match snd x with
    | Some t => [(2%nat, t); (1%nat, fst x)]
    | None => [(1%nat, fst x)]
    end.

  Lemma ref_here_regex pos w :
    proper w ->
    match bm REF_LINK_LINE (mkMst pos w []) Some with Some s => Some (m_caps s) | None => None end =
    option_map ref_caps (scan_ref_here w).
  Proof.
    intros HP. unfold REF_LINK_LINE. rewrite bm_seq, bm_star_bol. rewrite bm_seq.
    unfold Plus at 1. cbn [bm m_rest m_pos m_caps].
    unfold scan_ref_here. destruct w as [|c w]; [reflexivity|].
    destruct (is_ws c); [|reflexivity].
    assert (HPw := proper_cons _ _ HP).
    set (K2 := fun s => bm (Seq (Opt (Seq (Chr COLON) (Seq re_ws (Grp 2 (Plus false (Cls dot))))))
                                (Seq re_ws Eol)) s Some).
    match goal with
    | |- match ?lhs with _ => _ end = _ =>
      change lhs with (bm re_ws (mkMst (S pos) w []) (fun s => bm (Grp 1 re_id) s K2))
    end.
    assert (HK2 : forall pos r caps,
      K2 (mkMst pos r caps) =
      orelse (bm (Chr COLON) (mkMst pos r caps)
                (fun s => bm re_ws s (fun s => bm (Grp 2 (Plus false (Cls dot))) s tail_end)))
             (tail_end (mkMst pos r caps))) by reflexivity.
    rewrite ws_spec.
    - rewrite id_spec.
      + destruct (scan_id (trim_start w)) as [[id r]|] eqn:Eid; [|reflexivity].
        rewrite HK2, chr_spec, tail_end_spec.
        assert (HPr : proper r).
        { apply scan_id_eq in Eid. destruct (trim_start_decomp w) as (p & Hp & _).
          rewrite Hp, Eid in HPw. apply proper_app, proper_app in HPw. exact HPw. }
        destruct r as [|x r]; [reflexivity|].
        destruct (N.eqb_spec x COLON) as [->|Hx].
        * assert (HPr' := proper_cons _ _ HPr). rewrite title_spec by exact HPr'.
          destruct (scan_title r); reflexivity.
        * cbn [orelse]. destruct (forallb is_ws (x :: r)); reflexivity.
      + intros p0 x y z Hx. rewrite HK2, chr_spec, tail_end_spec. cbn [forallb].
        rewrite (xid_continue_not_ws _ Hx). cbn [andb].
        destruct (N.eqb_spec x COLON) as [->|]; [|reflexivity].
        rewrite xid_continue_colon in Hx. discriminate.
    - intros p0 x y z Hx. apply (id_fails_on is_ws); [apply ws_not_start|exact Hx].
  Qed.

  Theorem ref_regex w :
    proper w -> captures REF_LINK_LINE w = option_map ref_caps (scan_ref w).
  Proof.
    unfold captures. generalize 0%nat. induction w as [|c w IH]; intros pos HP.
    - cbn [search]. pose proof (ref_here_regex pos [] HP) as H. cbn [scan_ref scan_ref_here option_map] in *.
      destruct (bm REF_LINK_LINE (mkMst pos [] []) Some); [discriminate|]. reflexivity.
    - cbn [search scan_ref]. pose proof (ref_here_regex pos (c :: w) HP) as H.
      destruct (bm REF_LINK_LINE (mkMst pos (c :: w) []) Some) as [s|] eqn:E;
        destruct (scan_ref_here (c :: w)) as [x|]; cbn [option_map orelse] in *; try discriminate; [exact H|].
      apply IH. exact (proper_cons _ _ HP).
  Qed.
End Lex2.
